(** C117: a stored credentials hash is as good as the credentials. *)
From Verif Require Import Base Base_Lemmas Py Crypto_Model Crypto_Proofs Factory_Model Factory_Spec Factory_Proofs Creds_Model Creds_Spec.
From Verif Require Klap_Model Klap_Proofs CamMod_Model.
Open Scope string_scope.
Open Scope list_scope.
Open Scope Z_scope.

Lemma enc_dec b : enc (dec b) = b.
Proof. apply list_ascii_of_string_of_list_ascii. Qed.
Lemma dec_enc s : dec (enc s) = s.
Proof. apply string_of_list_ascii_of_string. Qed.
Lemma b64_open b : b64decode (enc (b64 b)) = Ok b.
Proof. unfold b64. rewrite enc_dec. apply b64_round_trip. Qed.
Lemma b64_some b : b <> [] -> String.eqb (b64 b) "" = false.
Proof.
  intro H. apply String.eqb_neq. intro E. apply H.
  pose proof (b64_open b) as Hb. rewrite E in Hb. cbn in Hb. congruence.
Qed.
Lemma b64decode_some h a : h <> [] -> b64decode h = Ok a -> a <> [].
Proof.
  destruct h as [|c1 [|c2 [|c3 [|c4 rest]]]]; try congruence; try (cbn; discriminate).
  intros _ H. cbn [b64decode] in H.
  destruct (char_sx c1) as [[]|]; [|discriminate]. destruct (char_sx c2) as [[]|]; [|discriminate].
  destruct (char_sx c3) as [[]|].
  - destruct (char_sx c4) as [[]|].
    + destruct (b64decode rest); cbn in H; [|discriminate]. injection H as <-. discriminate.
    + destruct (Ascii.eqb c4 pad_char && _); [|discriminate]. injection H as <-. discriminate.
  - destruct (Ascii.eqb c3 pad_char && _ && _); [|discriminate]. injection H as <-. discriminate.
Qed.

(** What from_dict makes of the stored dictionary *)
Lemma stored_config c h excl : exists c', from_dict (to_dict_control c h excl) = Ok c' /\
  conn c' = conn c /\ aes_keys c' = aes_keys c /\ host c' = host c /\
  creds c' = (match h with Some _ => None | None => if excl then None else creds c end) /\
  creds_hash c' = (match h with Some x => if String.eqb x "" then None else Some x | None => creds_hash c end).
Proof.
  unfold to_dict_control. destruct h as [x|]; [|destruct excl]; rewrite config_round_trip_lemma;
    eexists; split; try reflexivity; repeat split.
Qed.

Section Creds.
Variables sha1_hex md5_hex : bytes -> string.
Variables md5 sha1 sha256 : bytes -> bytes.
Variable dumps : json -> bytes.
Variable loads : bytes -> option json.
Notation opened := (opened sha1_hex md5_hex md5 sha1 sha256 loads).
Notation reported := (reported sha1_hex md5_hex md5 sha1 sha256 dumps loads).
Hypothesis Hj : json_texts dumps loads.
Hypothesis Hd : digests md5 sha256.

Lemma open_b64 j : loads (dumps j) = Some j -> open_hash loads (Some (b64 (dumps j))) = Ok j.
Proof. intro H. unfold open_hash. rewrite b64_open. cbn. now rewrite H. Qed.
Lemma full j : String.eqb (b64 (dumps j)) "" = false.
Proof. apply b64_some, Hj. Qed.
Lemma two_texts a b x y : a <> b -> loads (dumps (JObj [(a, JStr x); (b, JStr y)])) = Some (JObj [(a, JStr x); (b, JStr y)]).
Proof.
  intro H. apply Hj. split.
  - cbn. constructor; [|constructor; [easy | constructor]]. intros [E|[]]. congruence.
  - intros k v [E|[E|[]]]; injection E as <- <-; eauto.
Qed.
Lemma open_again h j : open_hash loads h = Ok j -> loads (dumps j) = Some j.
Proof.
  unfold open_hash. destruct h as [h|]; [|discriminate]. destruct (b64decode (enc h)) as [b|]; [|discriminate]. cbn.
  destruct (loads b) eqn:E; [|discriminate]. intro H. injection H as <-. now apply (proj1 (proj2 Hj)) in E.
Qed.
Lemma params_again of cr ha p : (forall c, loads (dumps (of c)) = Some (of c)) -> login_params loads of cr ha = Ok p ->
  loads (dumps p) = Some p.
Proof.
  intros Hof H. unfold login_params in H. destruct (effective cr ha) as [c|]; [injection H as <-; apply Hof | eapply open_again; eauto].
Qed.
Lemma aes_params_again lv c : loads (dumps (aes_login_params sha1_hex lv c)) = Some (aes_login_params sha1_hex lv c).
Proof. unfold aes_login_params, aes_hash_credentials. apply two_texts. destruct (is_two lv); discriminate. Qed.
Lemma ssl_params_again c : loads (dumps (ssl_login_params md5_hex c)) = Some (ssl_login_params md5_hex c).
Proof. apply two_texts. discriminate. Qed.
Lemma auth_full v c : Klap_Model.generate_auth_hash md5 sha1 sha256 v c <> [].
Proof. destruct v; [apply (proj1 (Hd _)) | apply (proj2 (Hd _))]. Qed.

Definition kept_creds (h : option string) (excl : bool) (cr : option (string * string)) : option (string * string) :=
  match h with Some _ => None | None => if excl then None else cr end.
Definition kept_hash (h : option string) (ha : option string) : option string :=
  match h with Some x => if String.eqb x "" then None else Some x | None => ha end.

Lemma aes_restores of cr ha excl p : (forall c, loads (dumps (of c)) = Some (of c)) -> cr = None \/ ha = None -> login_params loads of cr ha = Ok p ->
  let h := aes_hash dumps p cr ha in
  login_params loads of (kept_creds h excl cr) (kept_hash h ha) = Ok p /\
  aes_hash dumps p (kept_creds h excl cr) (kept_hash h ha) = h.
Proof.
  intros Hof Hs H h. subst h. unfold aes_hash at 1 2 4 5 6.
  destruct (is_blank (effective cr ha)) eqn:E.
  - cbn [kept_creds kept_hash].
    assert (Hb : effective (if excl then None else cr) ha = effective cr ha).
    { destruct excl; [|reflexivity]. destruct cr as [[u q]|]; [|reflexivity].
      destruct Hs as [Hs|Hs]; [discriminate|]. subst ha. cbn in E. apply andb_true_iff in E as [E1 E2].
      apply String.eqb_eq in E1, E2. now subst. }
    unfold login_params, aes_hash in *. rewrite Hb, E. split; [|reflexivity]. destruct (effective cr ha); [exact H | discriminate].
  - cbn [kept_creds kept_hash]. rewrite full. unfold login_params, aes_hash. cbn [effective]. rewrite full.
    rewrite open_b64 by (eapply params_again; eauto). now split.
Qed.
Lemma ssl_restores of cr ha excl p : (forall c, loads (dumps (of c)) = Some (of c)) -> login_params loads of cr ha = Ok p ->
  let h := ssl_hash dumps p in
  login_params loads of (kept_creds h excl cr) (kept_hash h ha) = Ok p.
Proof.
  intros Hof Hp h. subst h. unfold ssl_hash. cbn [kept_creds kept_hash]. rewrite full. unfold login_params. cbn [effective].
  rewrite full. apply open_b64. eapply params_again; eauto.
Qed.
Lemma cam_restores cr ha excl up : cr = None \/ ha = None -> (forall u p, cr = Some (u, p) -> (u = "" <-> p = "")) ->
  cam_pair loads cr ha = Ok up ->
  let h := cam_hash dumps cr ha in
  cam_pair loads (kept_creds h excl cr) (kept_hash h ha) = Ok up /\
  cam_hash dumps (kept_creds h excl cr) (kept_hash h ha) = h.
Proof.
  intros Hs Hw H h. subst h. destruct cr as [[u p]|].
  - destruct Hs as [Hs|Hs]; [discriminate|]. subst ha. specialize (Hw u p eq_refl).
    destruct (String.eqb u "") eqn:Eu.
    + apply String.eqb_eq in Eu. subst u. assert (p = "") by now apply Hw. subst p.
      destruct excl; cbn in H |- *; now split.
    + assert (Ep : String.eqb p "" = false).
      { apply String.eqb_neq. intro. apply String.eqb_neq in Eu. apply Eu. now apply Hw. }
      unfold cam_hash at 1 2 4 5 6. cbn [effective is_blank]. rewrite Eu, Ep. cbn [andb negb kept_creds kept_hash].
      unfold cam_b64. rewrite full. unfold cam_pair, cam_hash. cbn [effective fst snd]. rewrite full. rewrite open_b64 by (apply two_texts; discriminate).
      cbn [effective is_blank] in H. unfold cam_pair in H. cbn [effective is_blank] in H. rewrite Eu in H. cbn [andb] in H.
      cbn -[full] . cbn in H. now split.
  - destruct ha as [x|]; [|destruct excl; cbn in H |- *; now split].
    unfold cam_hash at 1 2 4 5 6. unfold cam_pair in H. cbn [effective] in *.
    destruct (String.eqb x "") eqn:Ex.
    + cbn [is_blank andb String.eqb] in *. cbn [kept_creds kept_hash]. unfold cam_pair, cam_hash.
      destruct excl; cbn [effective]; rewrite Ex; cbn [is_blank andb String.eqb]; now split.
    + cbn [is_blank kept_creds kept_hash]. rewrite Ex. unfold cam_pair, cam_hash. cbn [effective]. rewrite Ex.
      cbn [is_blank]. now split.
Qed.
Lemma klap_restores v cr ha excl k : cr = None \/ ha = None -> klap_config md5 sha1 sha256 v cr ha = Ok k ->
  let h := option_map dec (Klap_Model.credentials_hash k) in
  exists k', klap_config md5 sha1 sha256 v (kept_creds h excl cr) (kept_hash h ha) = Ok k' /\
    Klap_Model.c_version k' = Klap_Model.c_version k /\
    Klap_Model.candidates md5 sha1 sha256 k' = Klap_Model.candidates md5 sha1 sha256 k /\
    option_map dec (Klap_Model.credentials_hash k') = h.
Proof.
  intros Hs H h. subst h.
  assert (Hback : forall a, a <> [] -> klap_config md5 sha1 sha256 v None (Some (b64 a)) = Ok (Klap_Model.mkCfg v None a)).
  { intros a Ha. unfold klap_config, Klap_Model.make_config. cbn [option_map]. unfold b64. rewrite enc_dec, b64_round_trip.
    pose proof (b64_some a Ha) as Hb. unfold b64 in Hb. destruct (b64encode a); [discriminate | reflexivity]. }
  unfold klap_config, Klap_Model.make_config in H. destruct cr as [[u p]|].
  - destruct Hs as [Hs|Hs]; [discriminate|]. subst ha. cbn [option_map fst snd] in H. injection H as <-.
    unfold Klap_Model.credentials_hash at 1 2 4. cbn [Klap_Model.c_creds Klap_Model.c_auth].
    destruct (Klap_Model.cred_eqb _ _) eqn:E.
    + apply Klap_Proofs.cred_eqb_eq in E. cbn [option_map kept_creds kept_hash]. rewrite E. destruct excl.
      * eexists. split; [reflexivity|]. repeat split.
      * eexists. split; [unfold klap_config, Klap_Model.make_config; cbn [option_map fst snd]; rewrite E; reflexivity|]. repeat split.
    + cbn [option_map kept_creds kept_hash]. fold (b64 (Klap_Model.generate_auth_hash md5 sha1 sha256 v (Klap_Model.mkCred (enc u) (enc p)))).
      rewrite b64_some by apply auth_full. rewrite Hback by apply auth_full. eexists. split; [reflexivity|].
      unfold Klap_Model.candidates, Klap_Model.credentials_hash. cbn [Klap_Model.c_creds Klap_Model.c_auth Klap_Model.c_version].
      rewrite E. repeat split.
  - destruct ha as [x|]; cbn [option_map] in H.
    + destruct (enc x) as [|a0 r] eqn:Ex.
      * injection H as <-. cbn [Klap_Model.credentials_hash option_map kept_creds kept_hash].
        eexists. split; [|repeat split]. unfold klap_config, Klap_Model.make_config. destruct excl; cbn [option_map kept_creds kept_hash Klap_Model.credentials_hash Klap_Model.c_creds]; unfold Klap_Model.cred_eqb, Klap_Model.bytes_eqb; cbn; rewrite Ex; reflexivity.
      * destruct (b64decode (a0 :: r)) as [a|] eqn:Ea; [|discriminate]. cbn [bind] in H. injection H as <-.
        unfold Klap_Model.credentials_hash at 1 2 4. cbn [Klap_Model.c_creds Klap_Model.c_auth option_map kept_creds kept_hash].
        assert (Ha : a <> []) by (apply (b64decode_some (a0 :: r)); [discriminate | exact Ea]).
        fold (b64 a). rewrite b64_some by exact Ha. rewrite Hback by exact Ha. eexists. split; [reflexivity|]. repeat split.
    + injection H as <-. cbn. destruct excl; eexists; split; try reflexivity; repeat split.
Qed.
End Creds.

(** A device is set up with credentials or with a stored hash, and its
    configuration is written with the hash the device reports, as
    to_dict_control_credentials does.  The configuration read back holds no
    credentials; whatever the transport, it logs in with the same thing and
    reports the same hash.  A camera's pair must be whole. *)
Theorem stored_hash_logs_in_partial : forall sha1_hex md5_hex md5 sha1 sha256 dumps loads t c s h exclude,
  json_texts dumps loads -> digests md5 sha256 ->
  one_source c -> (t = SslAesTransport -> whole_pair c) ->
  opened sha1_hex md5_hex md5 sha1 sha256 loads t c = Ok s ->
  reported sha1_hex md5_hex md5 sha1 sha256 dumps loads t c = Ok h ->
  exists c', from_dict (to_dict_control c h exclude) = Ok c' /\
    (exclude = true \/ h <> None -> creds c' = None) /\
    conn c' = conn c /\ host c' = host c /\ aes_keys c' = aes_keys c /\
    opened sha1_hex md5_hex md5 sha1 sha256 loads t c' = Ok s /\
    reported sha1_hex md5_hex md5 sha1 sha256 dumps loads t c' = Ok h.
Proof.
  intros sha1_hex md5_hex md5 sha1 sha256 dumps loads t c s h exclude Hj Hd Hs Hw Ho Hr.
  destruct (stored_config c h exclude) as (c' & Hc & E1 & E2 & E3 & E4 & E5).
  fold (kept_creds h exclude (creds c)) in E4. fold (kept_hash h (creds_hash c)) in E5.
  exists c'. split; [exact Hc|]. split.
  { rewrite E4. unfold kept_creds. destruct h; [reflexivity|]. intros [->|]; [reflexivity | congruence]. }
  split; [exact E1|]. split; [exact E3|]. split; [exact E2|].
  destruct t; unfold opened, reported in *; rewrite ?E1, ?E4, ?E5.
  - auto.
  - destruct (klap_config md5 sha1 sha256 (klap_version KlapTransport) (creds c) (creds_hash c)) as [k|] eqn:Ek; [|discriminate]. cbn [bind] in *.
    injection Ho as <-. injection Hr as <-.
    destruct (klap_restores md5 sha1 sha256 Hd _ _ _ exclude k Hs Ek) as (k' & K1 & K2 & K3 & K4).
    rewrite K1. cbn [bind]. rewrite K2, K3, K4. auto.
  - destruct (klap_config md5 sha1 sha256 (klap_version KlapTransportV2) (creds c) (creds_hash c)) as [k|] eqn:Ek; [|discriminate]. cbn [bind] in *.
    injection Ho as <-. injection Hr as <-.
    destruct (klap_restores md5 sha1 sha256 Hd _ _ _ exclude k Hs Ek) as (k' & K1 & K2 & K3 & K4).
    rewrite K1. cbn [bind]. rewrite K2, K3, K4. auto.
  - destruct (login_params _ _ _ _) as [p|] eqn:Ep in Ho; [|discriminate]. rewrite Ep in Hr. cbn [bind] in *.
    injection Ho as <-. injection Hr as <-.
    destruct (aes_restores dumps loads Hj _ _ _ exclude p (aes_params_again sha1_hex dumps loads Hj _) Hs Ep) as (K1 & K2). rewrite K1. cbn [bind]. rewrite K2. auto.
  - destruct (login_params _ _ _ _) as [p|] eqn:Ep in Ho; [|discriminate]. rewrite Ep in Hr. cbn [bind] in *.
    injection Ho as <-. injection Hr as <-.
    rewrite (ssl_restores dumps loads Hj _ _ _ exclude p (ssl_params_again md5_hex dumps loads Hj) Ep). auto.
  - destruct (cam_pair _ _ _) as [p|] eqn:Ep in Ho; [|discriminate]. rewrite Ep in Hr. cbn [bind] in *.
    injection Ho as <-. injection Hr as <-.
    destruct (cam_restores dumps loads Hj _ _ exclude p Hs (Hw eq_refl) Ep) as (K1 & K2). rewrite K1. cbn [bind]. rewrite K2. auto.
  - auto.
Qed.
Print Assumptions stored_hash_logs_in_partial.

(** The same for the stream URL of a camera: the configuration read back gives the
    account the credentials gave. *)
Theorem stored_hash_streams : forall sha1_hex md5_hex md5 sha1 sha256 dumps loads c u p h exclude c',
  json_texts dumps loads -> u <> "" -> p <> "" ->
  creds c = Some (u, p) -> creds_hash c = None ->
  reported sha1_hex md5_hex md5 sha1 sha256 dumps loads SslAesTransport c = Ok h ->
  from_dict (to_dict_control c h exclude) = Ok c' ->
  CamMod_Model.get_credentials (read_hash loads) (creds c') (creds_hash c') = Ok (Some (JStr u, JStr p)) /\
  CamMod_Model.get_credentials (read_hash loads) (creds c) (creds_hash c) = Ok (Some (JStr u, JStr p)).
Proof.
  intros sha1_hex md5_hex md5 sha1 sha256 dumps loads c u p h exclude c' Hj Hu Hp Hc Hh Hr Hf.
  apply String.eqb_neq in Hu, Hp. split; [|now rewrite Hc, Hh].
  destruct (stored_config c h exclude) as (c2 & Hc2 & _ & _ & _ & E4 & E5).
  rewrite Hf in Hc2. injection Hc2 as <-. unfold reported in Hr. rewrite Hc, Hh in Hr.
  unfold cam_pair, cam_hash in Hr. cbn [effective is_blank] in Hr. rewrite Hu, Hp in Hr. cbn in Hr. injection Hr as <-.
  unfold cam_b64 in E5. rewrite (full dumps loads Hj) in E5. rewrite E4, E5. unfold CamMod_Model.get_credentials. rewrite (full dumps loads Hj).
  unfold read_hash. change list_ascii_of_string with enc. rewrite b64_open. rewrite (two_texts dumps loads Hj) by discriminate.
  cbn. now rewrite Hu, Hp.
Qed.
Print Assumptions stored_hash_streams.

(** What a login request over the AES transport holds for the account that was
    given: with login version 2 the digests of both parts, otherwise the digest of the
    user name and the password.  The vacuum's transport sends the user name and
    the password's digest.  KLAP tries the digest of the account first. *)
Theorem login_holds_account : forall sha1_hex md5_hex md5 sha1 sha256 loads c u p,
  creds c = Some (u, p) ->
  (exists params, opened sha1_hex md5_hex md5 sha1 sha256 loads AesTransport c = Ok (SLogin params) /\
     (login_version (conn c) = Some 2 -> login_v2 sha1_hex u p params) /\
     (login_version (conn c) <> Some 2 -> login_v1 sha1_hex u p params)) /\
  (exists d, opened sha1_hex md5_hex md5 sha1 sha256 loads SslTransport c = Ok (SLogin (JObj d)) /\
     dget "username" d = Some (JStr u) /\ dget "password" d = Some (JStr (md5_hex (list_ascii_of_string p))) /\ length d = 2%nat) /\
  (exists rest, opened sha1_hex md5_hex md5 sha1 sha256 loads KlapTransport c =
     Ok (SKlap Klap_Model.V1 (md5 (md5 (list_ascii_of_string u) ++ md5 (list_ascii_of_string p)) :: rest))) /\
  (exists rest, opened sha1_hex md5_hex md5 sha1 sha256 loads KlapTransportV2 c =
     Ok (SKlap Klap_Model.V2 (sha256 (sha1 (list_ascii_of_string u) ++ sha1 (list_ascii_of_string p)) :: rest))).
Proof.
  intros sha1_hex md5_hex md5 sha1 sha256 loads c u p Hc.
  assert (Hb : forall b, base64_of (JStr (b64 b)) b) by (intro b; eexists; split; [reflexivity | apply b64_open]).
  unfold opened, login_params. rewrite Hc. cbn [effective bind]. split; [|split; [|split; eexists; reflexivity]].
  - eexists. split; [reflexivity|]. unfold aes_login_params, aes_hash_credentials. cbn [fst snd]. split; intro H.
    + rewrite H. cbn [is_two Z.eqb Pos.eqb]. do 3 eexists. split; [reflexivity|]. split; [reflexivity|]. split; [reflexivity|].
      split; [reflexivity|]. split; apply Hb.
    + assert (E : is_two (login_version (conn c)) = false).
      { destruct (login_version (conn c)) as [n|]; [|reflexivity]. cbn. apply Z.eqb_neq. congruence. }
      rewrite E. do 3 eexists. split; [reflexivity|]. split; [reflexivity|]. split; [reflexivity|].
      split; [reflexivity|]. split; apply Hb.
  - eexists. split; [reflexivity|]. repeat split.
Qed.
Print Assumptions login_holds_account.

(** Credentials that are not blank take precedence over a hash, whatever it is. *)
Definition set_hash (c : devconfig) (h : option string) : devconfig :=
  mkConf (host c) (timeout c) (port_override c) (creds c) h (batch_size c) (conn c) (client c) (aes_keys c).
Theorem credentials_win : forall sha1_hex md5_hex md5 sha1 sha256 dumps loads t c u p h,
  creds c = Some (u, p) -> (u, p) <> ("", "") ->
  opened sha1_hex md5_hex md5 sha1 sha256 loads t (set_hash c h) =
    opened sha1_hex md5_hex md5 sha1 sha256 loads t (set_hash c None) /\
  reported sha1_hex md5_hex md5 sha1 sha256 dumps loads t (set_hash c h) =
    reported sha1_hex md5_hex md5 sha1 sha256 dumps loads t (set_hash c None) /\
  (t = SslAesTransport -> opened sha1_hex md5_hex md5 sha1 sha256 loads t (set_hash c h) = Ok (SPair (Some (JStr u)) (Some (JStr p)))).
Proof.
  intros sha1_hex md5_hex md5 sha1 sha256 dumps loads t c u p h Hc Hn.
  assert (E : is_blank (Some (u, p)) = false).
  { cbn. destruct (String.eqb u "") eqn:E1; [|reflexivity]. destruct (String.eqb p "") eqn:E2; [|reflexivity].
    apply String.eqb_eq in E1, E2. subst. congruence. }
  destruct t; unfold opened, reported, klap_config, Klap_Model.make_config, login_params, aes_hash, cam_pair, cam_hash;
    cbn [creds creds_hash conn set_hash]; rewrite ?Hc; cbn [option_map effective bind]; rewrite ?E;
    (split; [reflexivity|]); (split; [reflexivity|]); intro; try discriminate. reflexivity.
Qed.
Print Assumptions credentials_win.

(** A hash that is no base64, or no JSON, is not taken for one: the transport is not
    made. *)
Theorem bad_hash_refused : forall sha1_hex md5_hex md5 sha1 sha256 loads t c h,
  creds c = None -> creds_hash c = Some h -> h <> "" ->
  t = AesTransport \/ t = SslTransport \/ t = SslAesTransport -> read_hash loads h = None ->
  exists e, opened sha1_hex md5_hex md5 sha1 sha256 loads t c = Err e.
Proof.
  intros sha1_hex md5_hex md5 sha1 sha256 loads t c h Hc Hh Hn Ht Hr. apply String.eqb_neq in Hn.
  assert (Ho : exists e, open_hash loads (Some h) = Err e).
  { unfold open_hash, read_hash, enc in *. destruct (b64decode _); cbn; [rewrite Hr|]; eauto. }
  destruct Ho as [e Ho]. exists e.
  destruct Ht as [-> | [-> | ->]]; unfold opened, login_params, cam_pair; rewrite Hc, Hh; cbn [effective]; rewrite Hn, Ho; reflexivity.
Qed.
Print Assumptions bad_hash_refused.

(** A legacy camera is logged in to with its factory account, whatever the configuration says: HTTP's
    basic authentication for admin and the digest of "admin". *)
Theorem linkie_factory_account : forall sha1_hex md5_hex md5 sha1 sha256 dumps loads c,
  exists h, opened sha1_hex md5_hex md5 sha1 sha256 loads LinkieTransportV2 c = Ok (SBasic ("Basic " ++ h)%string) /\
    base64_of (JStr h) (list_ascii_of_string "admin:21232f297a57a5a743894a0e4a801fc3") /\
    reported sha1_hex md5_hex md5 sha1 sha256 dumps loads LinkieTransportV2 c = Ok (Some h).
Proof.
  intros. exists linkie_hash. split; [reflexivity|]. split; [|reflexivity].
  exists linkie_hash. split; [reflexivity|]. vm_compute. reflexivity.
Qed.
Print Assumptions linkie_factory_account.

(** A camera account with an empty password has no hash, and the stored
    configuration has lost the account. *)
Theorem cam_empty_password_refuted : forall sha1_hex md5_hex md5 sha1 sha256 dumps loads,
  exists c c', one_source c /\
    opened sha1_hex md5_hex md5 sha1 sha256 loads SslAesTransport c = Ok (SPair (Some (JStr "user")) (Some (JStr ""))) /\
    reported sha1_hex md5_hex md5 sha1 sha256 dumps loads SslAesTransport c = Ok None /\
    from_dict (to_dict_control c None true) = Ok c' /\
    opened sha1_hex md5_hex md5 sha1 sha256 loads SslAesTransport c' = Ok (SPair None None).
Proof.
  intros. set (p := mkParams SmartIpCamera Aes (Some 2) true None).
  exists (mkConf "h" (Some 5) None (Some ("user", "")) None None p None None), (mkConf "h" (Some 5) None None None None p None None).
  split; [right; reflexivity|]. repeat split.
Qed.
Print Assumptions cam_empty_password_refuted.

(** With blank credentials and a hash, a camera logs in with the hash and
    reports none; over the AES transport the blank credentials are used, and the
    stored configuration uses the hash instead. *)
Theorem blank_and_hash_refuted : forall sha1_hex md5_hex md5 sha1 sha256 dumps loads, json_texts dumps loads ->
  exists c c', creds c = Some ("", "") /\
    opened sha1_hex md5_hex md5 sha1 sha256 loads SslAesTransport c = Ok (SPair (Some (JStr "user")) (Some (JStr "secret"))) /\
    reported sha1_hex md5_hex md5 sha1 sha256 dumps loads SslAesTransport c = Ok None /\
    reported sha1_hex md5_hex md5 sha1 sha256 dumps loads AesTransport c = Ok None /\
    from_dict (to_dict_control c None true) = Ok c' /\
    opened sha1_hex md5_hex md5 sha1 sha256 loads AesTransport c' <> opened sha1_hex md5_hex md5 sha1 sha256 loads AesTransport c.
Proof.
  intros sha1_hex md5_hex md5 sha1 sha256 dumps loads Hj. set (p := mkParams SmartIpCamera Aes None true None).
  set (j := JObj [("un", JStr "user"); ("pwd", JStr "secret")]).
  assert (Hl : loads (dumps j) = Some j) by (apply two_texts; [exact Hj | discriminate]).
  pose proof (full dumps loads Hj j) as Hf. pose proof (open_b64 dumps loads j Hl) as Ho.
  exists (mkConf "h" (Some 5) None (Some ("", "")) (Some (b64 (dumps j))) None p None None),
         (mkConf "h" (Some 5) None None (Some (b64 (dumps j))) None p None None).
  split; [reflexivity|].
  unfold opened, reported, cam_pair, login_params. cbn [creds creds_hash conn effective is_blank String.eqb andb].
  rewrite Hf, Ho. split; [reflexivity|]. split; [reflexivity|]. split; [reflexivity|]. split.
  - unfold to_dict_control. rewrite config_round_trip_lemma. reflexivity.
  - cbn. discriminate.
Qed.
Print Assumptions blank_and_hash_refuted.

(** The hypotheses are met: a writer and reader for objects of texts, and digests. *)
Definition toy_text (s : string) : bytes := flat_map (fun c => ["1"%char; c]) (list_ascii_of_string s) ++ ["0"%char].
Fixpoint toy_obj (d : dict json) : bytes :=
  match d with
  | [] => []
  | (k, JStr v) :: d' => toy_text k ++ toy_text v ++ toy_obj d'
  | _ :: d' => toy_obj d'
  end.
Definition toy_dumps (j : json) : bytes := "{"%char :: match j with JObj d => toy_obj d | _ => [] end.
Fixpoint toy_scan (acc : bytes) (b : bytes) : list string :=
  match b with
  | [] => []
  | c :: r => if Ascii.eqb c "0" then string_of_list_ascii (rev acc) :: toy_scan [] r
              else match r with [] => [] | c' :: r' => toy_scan (c' :: acc) r' end
  end.
Fixpoint toy_pairs (l : list string) : dict json :=
  match l with
  | k :: v :: r => (k, JStr v) :: toy_pairs r
  | _ => []
  end.
Definition toy_loads (b : bytes) : option json :=
  match b with
  | c :: r => if Ascii.eqb c "{" then Some (JObj (toy_pairs (toy_scan [] r))) else None
  | [] => None
  end.
Lemma toy_scan_text s : forall acc rest, toy_scan acc (flat_map (fun c => ["1"%char; c]) s ++ "0"%char :: rest)
  = string_of_list_ascii (rev acc ++ s) :: toy_scan [] rest.
Proof.
  induction s as [|c s IH]; intros acc rest.
  - cbn. now rewrite app_nil_r.
  - cbn [flat_map app toy_scan Ascii.eqb Bool.eqb]. cbn [toy_scan]. cbn -[toy_scan flat_map]. rewrite IH. cbn. now rewrite <- app_assoc.
Qed.
Lemma toy_scan_one s rest : toy_scan [] (toy_text s ++ rest) = s :: toy_scan [] rest.
Proof. unfold toy_text. rewrite <- app_assoc. cbn [app]. rewrite toy_scan_text. cbn. now rewrite string_of_list_ascii_of_string. Qed.
Lemma toy_back d : (forall k v, In (k, v) d -> exists s, v = JStr s) -> toy_pairs (toy_scan [] (toy_obj d)) = d.
Proof.
  induction d as [|[k v] d IH]; intro H; [reflexivity|]. destruct (H k v (or_introl eq_refl)) as [s ->].
  cbn [toy_obj]. rewrite !toy_scan_one. cbn [toy_pairs]. rewrite IH; [reflexivity|]. intros; eapply H; right; eauto.
Qed.
Lemma toy_texts : json_texts toy_dumps toy_loads.
Proof.
  split; [|split].
  - intros d [_ H]. cbn. now rewrite toy_back.
  - intros b j H. destruct b as [|c r]; [discriminate|]. cbn in H. destruct (Ascii.eqb c "{"); [|discriminate].
    injection H as <-. cbn. rewrite toy_back; [reflexivity|]. generalize (toy_scan [] r) as l. fix IH 1.
    intros [|k [|v l]]; cbn; try easy. intros k0 v0 [E|E]; [injection E as <- <-; eauto | eapply IH; eauto].
  - intro j. discriminate.
Qed.
Definition toy_digest (m : bytes) : bytes := "#"%char :: m.
Definition toy_hex (m : bytes) : string := string_of_list_ascii ("h"%char :: m).
Example stored_hash_ex :
  let c := mkConf "h" (Some 5) None (Some ("user", "pw")) None None (mkParams SmartIpCamera Aes (Some 2) true None) None (Some ("priv", "pub")) in
  json_texts toy_dumps toy_loads /\ digests toy_digest toy_digest /\ one_source c /\ whole_pair c /\
  (forall t, exists s h, opened toy_hex toy_hex toy_digest toy_digest toy_digest toy_loads t c = Ok s /\
     reported toy_hex toy_hex toy_digest toy_digest toy_digest toy_dumps toy_loads t c = Ok h /\
     (h = None <-> t = XorTransport)).
Proof.
  split; [apply toy_texts|]. split; [split; discriminate|]. split; [right; reflexivity|].
  split; [intros u p H; injection H as <- <-; split; discriminate|].
  intros []; eexists; eexists; (split; [reflexivity|]); (split; [reflexivity|]); split; (reflexivity || discriminate).
Qed.
(** A stored hash as the only source *)
Example stored_hash_ex2 :
  let c h := mkConf "h" (Some 5) None None (Some h) None (mkParams SmartTapoPlug Aes (Some 2) false None) None None in
  one_source (c "bXlkaWdlc3Q=") /\
  (exists s, opened toy_hex toy_hex toy_digest toy_digest toy_digest toy_loads KlapTransportV2 (c "bXlkaWdlc3Q=") = Ok s /\
     reported toy_hex toy_hex toy_digest toy_digest toy_digest toy_dumps toy_loads KlapTransportV2 (c "bXlkaWdlc3Q=") = Ok (Some "bXlkaWdlc3Q=")) /\
  (exists e, opened toy_hex toy_hex toy_digest toy_digest toy_digest toy_loads AesTransport (c "bXlkaWdlc3Q=") = Err e) /\
  read_hash toy_loads "bXlkaWdlc3Q=" = None.
Proof. split; [now left|]. split; [eexists; split; reflexivity|]. split; [eexists; reflexivity | reflexivity]. Qed.

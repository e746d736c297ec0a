(** Proofs about the camera client and a camera together. *)
From Verif Require Import Base Base_Lemmas Py Codes_Model Crypto_Model Crypto_Proofs Cam_Model Cam_Spec Cam_Proofs CamPeer_Spec.
From Verif Require Klap_Model Aes_Model Aes_Spec Aes_Proofs.
Open Scope string_scope.
Open Scope list_scope.
Open Scope Z_scope.

Lemma app_cancel (a b c : string) : (a ++ c)%string = (b ++ c)%string -> a = b.
Proof.
  intros H. apply (f_equal list_ascii_of_string) in H.
  assert (L : forall x y, list_ascii_of_string (x ++ y)%string = list_ascii_of_string x ++ list_ascii_of_string y).
  { intros x y. induction x as [|ch x IH]; [reflexivity|]. cbn [String.append list_ascii_of_string List.app]. now rewrite IH. }
  rewrite !L in H. apply app_inv_tail in H.
  rewrite <- (string_of_list_ascii_of_string a), <- (string_of_list_ascii_of_string b). now rewrite H.
Qed.

(** ** The log only grows *)
Definition grows {A} (f : M cam A) : Prop := forall t, exists p, log (fst (f t)) = log t ++ p.
Lemma grows_ret {A} (a : A) : grows (mret a).
Proof. intros t. exists []. now rewrite app_nil_r. Qed.
Lemma grows_fail {A} e : grows (@mfail _ A e).
Proof. intros t. exists []. now rewrite app_nil_r. Qed.
Lemma grows_lift {A} (r : res A) : grows (mlift r).
Proof. intros t. exists []. now rewrite app_nil_r. Qed.
Lemma grows_same {A} (f : M cam A) : (forall t, log (fst (f t)) = log t) -> grows f.
Proof. intros H t. exists []. now rewrite app_nil_r, H. Qed.
Lemma grows_bind {A B} (m : M cam A) (f : A -> M cam B) : grows m -> (forall a, grows (f a)) -> grows (mbind m f).
Proof.
  intros Hm Hf t. unfold mbind. destruct (Hm t) as (p & Hp). destruct (m t) as [t1 [a|e]]; cbn [fst] in *.
  - destruct (Hf a t1) as (q & Hq). exists (p ++ q). now rewrite Hq, Hp, app_assoc.
  - eauto.
Qed.
Lemma grows_post p r : grows (post_200 p r).
Proof. intros t. exists [p]. reflexivity. Qed.
Lemma grows_code j : grows (handle_code j).
Proof.
  apply grows_same. intros t. unfold handle_code. destruct (response_error j); [|reflexivity].
  destruct (a =? 0); [reflexivity|]. destruct (zmem a smart_retryable_errors); [reflexivity|].
  now destruct (zmem a smart_authentication_errors).
Qed.
Lemma bind_split {A B} (m : M cam A) (f : A -> M cam B) t t' o p :
  mbind m f t = (t', o) -> grows m -> (forall a, grows (f a)) -> log t' = log t ++ p ->
  exists t1 o1 p1 p2, m t = (t1, o1) /\ log t1 = log t ++ p1 /\ p = p1 ++ p2 /\
    match o1 with
    | Ok a => f a t1 = (t', o) /\ log t' = log t1 ++ p2
    | Err e => t' = t1 /\ o = Err e /\ p2 = []
    end.
Proof.
  intros H Hm Hf Hl. unfold mbind in H. destruct (Hm t) as (p1 & H1). destruct (m t) as [t1 [a|e]]; cbn [fst] in H1.
  - destruct (Hf a t1) as (p2 & H2). rewrite H in H2. cbn [fst] in H2. exists t1, (Ok a), p1, p2.
    split; [reflexivity|]. split; [exact H1|]. split; [|auto]. rewrite H2, H1, <- app_assoc in Hl.
    now apply app_inv_head in Hl.
  - injection H as <- <-. exists t1, (Err e), p1, []. split; [reflexivity|]. split; [exact H1|].
    rewrite H1 in Hl. apply app_inv_head in Hl. rewrite app_nil_r. auto.
Qed.

Section Peer.
Variables enc_block dec_block : bytes -> bytes -> bytes.
Variable json_loads : bytes -> option json.
Variables md5_hex sha256_hex : bytes -> string.
Variable sha256 : bytes -> bytes.
Variable str_int : Z -> string.
Variable str_json : json -> string.
Variable wrap : bytes -> bytes.
Variable cfg : config.
Variables user_d pass : string.
Variable S : Type.
Variable app : S -> bytes -> S * bytes.
Hypothesis enc_length : forall key b, length b = block -> length (enc_block key b) = block.
Hypothesis dec_enc : forall key b, length b = block -> dec_block key (enc_block key b) = b.
Hypothesis sha_length : forall b, length (sha256 b) = 32%nat.
Hypothesis str_text : forall s, str_json (JStr s) = s.
Hypothesis json : speaks json_loads S app.
Hypothesis named : user_d <> "".

Notation fin1 := (finish1 md5_hex sha256_hex cfg).
Notation hs1 := (handshake1 md5_hex sha256_hex str_json cfg).
Notation hs2 := (handshake2 sha256_hex sha256 str_json).
Notation hs := (handshake md5_hex sha256_hex sha256 str_json cfg).
Notation dflt := (try_default md5_hex sha256_hex str_json cfg).
Notation secures := (send_secure enc_block dec_block json_loads sha256_hex str_int wrap).
Notation sends := (send enc_block dec_block json_loads md5_hex sha256_hex sha256 str_int str_json wrap cfg).
Notation serv := (served enc_block dec_block sha256_hex sha256 str_int wrap user_d pass S app).
Notation togeth := (together enc_block dec_block json_loads md5_hex sha256_hex sha256 str_int str_json wrap cfg user_d pass S app).
Notation und := (understood json_loads).
Notation Sec := (secret cfg).
Notation conf := (confirmation sha256_hex pass).

Lemma grows_fin resp code n : grows (fin1 resp code n).
Proof. apply grows_same. intros t. now rewrite finish1_state. Qed.
Lemma grows_less d u p r : grows (less_secure_login md5_hex str_json d u p r).
Proof.
  unfold less_secure_login. apply grows_bind; [apply grows_post|]. intros j. apply grows_bind; [apply grows_lift|].
  intros c. destruct (eq_zero c); [|apply grows_ret]. apply grows_bind; [apply grows_lift|]. intros x.
  apply grows_bind; [apply grows_lift|]. intros y. destruct (truthy y); [|apply grows_ret].
  apply grows_same. reflexivity.
Qed.
Lemma grows_eta {A} (f : M cam A) : grows f -> grows (fun t => f t).
Proof. intros H t. apply H. Qed.
Lemma grows_shift {A} (g : cam -> cam) (f : M cam A) : (forall t, log (g t) = log t) -> grows f -> grows (fun t => f (g t)).
Proof. intros Hg H t. destruct (H (g t)) as (p & Hp). rewrite Hg in Hp. eauto. Qed.

Lemma dflt_split w resp code t : exists k, (forall j, grows (k j)) /\
  dflt w resp code t = mbind (post_200 (PHello true "admin" (w_n2 w)) (w_hello2 w)) k t /\
  k = (fun dresp =>
    do! dcode <- mlift (response_error dresp) ;;
    do! ok <- (if dcode =? INVALID_NONCE then mlift (has_nonce dresp) else mret false) ;;
    if ok then
      fun t => fin1 (Some dresp) (Some dcode) (w_n2 w) (set_user "admin" t)
    else
      do! less <- mlift (is_less_secure dresp) ;;
      do! logged <- (if less then fun t => less_secure_login md5_hex str_json true "admin" (pwd_to_hash cfg t) (w_plain2 w) t else mret false) ;;
      if logged then fun t => (set_st ESTABLISHED (set_user "admin" t), Ok None)
      else fin1 resp code (w_n2 w)).
Proof.
  eexists. split; [|split; [reflexivity|reflexivity]].
  intros j. apply grows_bind; [apply grows_lift|]. intros c. apply grows_bind.
  { destruct (c =? INVALID_NONCE); [apply grows_lift|apply grows_ret]. }
  intros [|].
  - apply grows_shift; [reflexivity|apply grows_fin].
  - apply grows_bind; [apply grows_lift|]. intros less. apply grows_bind.
    + destruct less; [|apply grows_ret]. intros t0. apply grows_less.
    + intros [|]; [now apply grows_same|apply grows_fin].
Qed.
Lemma grows_dflt w resp code : grows (dflt w resp code).
Proof.
  intros t. destruct (dflt_split w resp code t) as (k & Hk & E & _). rewrite E. apply grows_bind; [apply grows_post|exact Hk].
Qed.

Lemma served_one h w d x p d' : serv h w d (x :: p) d' ->
  exists d1, serv h w d1 p d' /\
    match x with
    | PHello def u n => on_hello sha256_hex user_d pass S (if def then h_hello2 h else h_hello h) u n d =
                          (d1, if def then w_hello2 w else w_hello w)
    | PPlainLogin def u ph => on_plain S (if def then h_plain2 h else h_plain h) d = (d1, if def then w_plain2 w else w_plain w)
    | PProof u n dg => on_proof sha256_hex sha256 user_d pass S (h_proof h) u n dg d = (d1, w_proof w)
    | PSecure url pl q tag => on_secure enc_block dec_block sha256_hex str_int wrap pass S app (h_request h) url pl q tag d = (d1, w_req w)
    | POpen url m => on_plain S (h_request h) d = (d1, w_req w)
    end.
Proof. intros H. inversion H; subst; eexists; split; eauto. Qed.
Lemma served_none h w d d' : serv h w d [] d' -> d' = d.
Proof. intros H. now inversion H. Qed.

Definition same_rest (t t1 : cam) : Prop :=
  st t1 = st t /\ secure t1 = secure t /\ url t1 = url t /\ seq t1 = seq t /\ sess t1 = sess t /\
  pwdh t1 = pwdh t /\ nonce t1 = nonce t.
Lemma same_refl t : same_rest t t.
Proof. repeat split. Qed.

(** ** The greeting *)
Definition user_ok (t : cam) : Prop :=
  user t = user_name cfg \/ (user t = Some "admin" /\ user_d = "admin").

Lemma hello_step {A} (def : bool) u n r (k : Base.json -> M cam A) t t' o p q h w d d' :
  mbind (post_200 (PHello def u n) r) k t = (t', o) -> (forall j, grows (k j)) -> log t' = log t ++ p ->
  r = (if def then w_hello2 w else w_hello w) -> serv h w d (p ++ q) d' ->
  let kc := if def then h_hello2 h else h_hello h in
  exists d1 p1, p = PHello def u n :: p1 /\ serv h w d1 (p1 ++ q) d' /\
    dv_sessions d1 = dv_sessions d /\ dv_state d1 = dv_state d /\
    ((exists e, o = Err e /\ t' = add_log (PHello def u n) t /\ p1 = [] /\ k_fate kc <> Answered) \/
     (exists j, k j (add_log (PHello def u n) t) = (t', o) /\ log t' = log (add_log (PHello def u n) t) ++ p1 /\
        ((u = user_d /\ j = conf n (k_nonce kc) /\ dv_hello d1 = Some (n, k_nonce kc)) \/
         (u <> user_d /\ j = unknown_user)))).
Proof.
  intros H Hk Hl Hr Hsv. cbv zeta. set (kc := if def then h_hello2 h else h_hello h).
  unfold mbind, post_200 in H.
  assert (Hp : exists p1, p = PHello def u n :: p1 /\ log t' = log (add_log (PHello def u n) t) ++ p1).
  { set (t1 := add_log (PHello def u n) t) in *.
    assert (Hg : exists p1, log t' = log t1 ++ p1).
    { destruct r as [[stt j]|e]; [destruct (negb (stt =? 200))|].
      - injection H as <- <-. exists []. now rewrite app_nil_r.
      - destruct (Hk j t1) as (p1 & Hp1). rewrite H in Hp1. eauto.
      - injection H as <- <-. exists []. now rewrite app_nil_r. }
    destruct Hg as (p1 & Hg). exists p1. split; [|exact Hg]. rewrite Hg in Hl. unfold t1 in Hl. cbn [log add_log] in Hl.
    rewrite <- app_assoc in Hl. apply app_inv_head in Hl. symmetry. exact Hl. }
  destruct Hp as (p1 & -> & Hl1). cbn [List.app] in Hsv. apply served_one in Hsv. destruct Hsv as (d1 & Hsv & Hon).
  fold kc in Hon. rewrite <- Hr in Hon. exists d1, p1. split; [reflexivity|]. split; [exact Hsv|].
  unfold on_hello, lost in Hon.
  destruct (String.eqb u user_d) eqn:Eu; [apply String.eqb_eq in Eu|apply String.eqb_neq in Eu];
    destruct (k_fate kc) eqn:Ef; cbn [fst snd] in Hon; injection Hon as <- Er; rewrite <- Er in H;
    (split; [reflexivity|]); (split; [reflexivity|]).
  all: try (injection H as <- <-; left; eexists; split; [reflexivity|]; split; [reflexivity|];
            (split; [|discriminate]); cbn [log add_log] in Hl1; rewrite <- (app_nil_r (log t ++ _)) in Hl1 at 1;
            apply app_inv_head in Hl1; now symmetry).
  - right. eexists. split; [exact H|]. split; [exact Hl1|]. left. auto.
  - right. eexists. split; [exact H|]. split; [exact Hl1|]. right. auto.
Qed.

(** What [finish1] makes of the camera's confirmation. *)
Lemma fin_conf n server t u : user t = Some u -> u <> "" ->
  exists o, fin1 (Some (conf n server)) (Some (-40413)) n t = (t, o) /\
    ((exists ph, o = Ok (Some (n, server, ph)) /\
        sha256_hex (lit n ++ lit pass ++ lit server) = sha256_hex (lit n ++ lit ph ++ lit server) /\
        (ph = sha256_hex (lit Sec) \/ (ph = md5_hex (lit Sec) /\ 
          sha256_hex (lit n ++ lit pass ++ lit server) <> sha256_hex (lit n ++ lit (sha256_hex (lit Sec)) ++ lit server)))) \/
     (exists e, o = Err e /\ pass <> sha256_hex (lit Sec) /\ pass <> md5_hex (lit Sec))).
Proof.
  intros Hu Hn. eexists. split.
  { unfold finish1. rewrite Hu. pose proof Hn as Hn'. apply String.eqb_neq in Hn'. rewrite Hn'. reflexivity. }
  rewrite (secret_pwd cfg t u Hu Hn).
  set (mt := fun ph => String.eqb (sha256_hex (lit n ++ lit pass ++ lit server)%list ++ server ++ n)
                                 (confirm_hash sha256_hex n server ph)).
  match goal with |- (exists ph, ?o = _ /\ _) \/ _ =>
    replace o with (if mt (sha256_hex (lit Sec)) then Ok (Some (n, server, sha256_hex (lit Sec)))
                    else if mt (md5_hex (lit Sec)) then Ok (Some (n, server, md5_hex (lit Sec)))
                    else Err (KAuth None)) by reflexivity end.
  assert (Hmt : forall ph, mt ph = true <-> sha256_hex (lit n ++ lit pass ++ lit server) = sha256_hex (lit n ++ lit ph ++ lit server)).
  { intros ph. unfold mt, confirm_hash. rewrite String.eqb_eq. split; [apply app_cancel|now intros ->]. }
  destruct (mt (sha256_hex (lit Sec))) eqn:E1; [|destruct (mt (md5_hex (lit Sec))) eqn:E2].
  - left. eexists. split; [reflexivity|]. apply Hmt in E1. auto.
  - left. eexists. split; [reflexivity|]. apply Hmt in E2. split; [exact E2|]. right. split; [reflexivity|].
    intros N. apply Hmt in N. congruence.
  - right. eexists. split; [reflexivity|]. split; intros N.
    + apply (f_equal (fun x => sha256_hex (lit n ++ lit x ++ lit server))) in N. apply Hmt in N. congruence.
    + apply (f_equal (fun x => sha256_hex (lit n ++ lit x ++ lit server))) in N. apply Hmt in N. congruence.
Qed.

(** The outcome of the greeting: a claim on a session, or an error. *)
Definition greeted (h : choice) (w : world) (t1 : cam) (d1 : device S) (o : res (option (string * string * string))) : Prop :=
  match o with
  | Ok (Some (n, server, ph)) =>
      dv_hello d1 = Some (n, server) /\ user t1 = Some user_d /\
      sha256_hex (lit n ++ lit pass ++ lit server) = sha256_hex (lit n ++ lit ph ++ lit server) /\
      (knows md5_hex sha256_hex cfg user_d pass -> healthy md5_hex sha256_hex cfg h w -> ph = pass)
  | Ok None => False
  | Err e => ~ (knows md5_hex sha256_hex cfg user_d pass /\ healthy md5_hex sha256_hex cfg h w)
  end.

Lemma conf_greeted h w n server t d1 (Hn : (n = w_n1 w /\ server = k_nonce (h_hello h)) \/ (n = w_n2 w /\ server = k_nonce (h_hello2 h))) :
  user t = Some user_d -> dv_hello d1 = Some (n, server) ->
  exists o, fin1 (Some (conf n server)) (Some (-40413)) n t = (t, o) /\ greeted h w t d1 o.
Proof.
  intros Hu Hd. destruct (fin_conf n server t user_d Hu named) as (o & Ho & [(ph & -> & E & Hph)|(e & -> & N1 & N2)]).
  - eexists. split; [exact Ho|]. cbn [greeted]. split; [exact Hd|]. split; [exact Hu|]. split; [exact E|].
    intros (_ & _ & Hp) (_ & _ & _ & _ & T1 & T2).
    assert (T : told_apart md5_hex sha256_hex cfg n server) by (destruct Hn as [(-> & ->)|(-> & ->)]; assumption).
    unfold told_apart in T. destruct Hph as [->|(-> & Hne)].
    + destruct Hp as [->|Hp]; [reflexivity|]. rewrite Hp in E. rewrite Hp. apply T. now symmetry.
    + destruct Hp as [Hp|Hp]; [|now rewrite Hp]. exfalso. apply Hne. now rewrite Hp.
  - eexists. split; [exact Ho|]. cbn [greeted]. intros ((_ & _ & [Hp|Hp]) & _); congruence.
Qed.

Lemma dflt_step w resp code t t' o p q h d d' :
  dflt w resp code t = (t', o) -> log t' = log t ++ p -> serv h w d (p ++ q) d' -> user_ok t ->
  (resp = None /\ code = None /\ (user t = None \/ user t = Some "") \/
   resp = Some unknown_user /\ code = Some (-40401) /\ (exists u, user t = Some u /\ u <> user_d)) ->
  exists d1, serv h w d1 q d' /\ dv_sessions d1 = dv_sessions d /\ dv_state d1 = dv_state d /\
    same_rest t t' /\ user_ok t' /\ greeted h w t' d1 o.
Proof.
  intros H Hl Hsv Hok Hcase. destruct (dflt_split w resp code t) as (k & Hk & E & Ek). rewrite E in H.
  destruct (hello_step true "admin" (w_n2 w) (w_hello2 w) k t t' o p q h w d d' H Hk Hl eq_refl Hsv)
    as (d1 & p1 & -> & Hsv1 & Hds & Hst & Hr).
  exists d1. destruct Hr as [(e & -> & -> & -> & Hf)|(j & Hj & Hl1 & Hr)].
  - split; [exact Hsv1|]. split; [exact Hds|]. split; [exact Hst|]. split; [repeat split|]. split; [exact Hok|].
    cbn [greeted]. intros (_ & _ & Hf' & _). congruence.
  - set (tl := add_log (PHello true "admin" (w_n2 w)) t) in *. rewrite Ek in Hj. clear Ek E Hk H k.
    destruct Hr as [(Hu & -> & Hd)|(Hu & ->)].
    + change (fin1 (Some (conf (w_n2 w) (k_nonce (h_hello2 h)))) (Some (-40413)) (w_n2 w) (set_user "admin" tl) = (t', o)) in Hj.
      destruct (conf_greeted h w (w_n2 w) (k_nonce (h_hello2 h)) (set_user "admin" tl) d1) as (o' & Ho & Hg).
      { right. auto. } { cbn [set_user user]. now rewrite <- Hu. } { exact Hd. }
      rewrite Ho in Hj. injection Hj as <- <-.
      assert (Hp1 : p1 = []). { cbn [log set_user] in Hl1. rewrite <- (app_nil_r (log tl)) in Hl1 at 1. apply app_inv_head in Hl1. now symmetry. }
      rewrite Hp1 in Hsv1. split; [exact Hsv1|]. split; [exact Hds|]. split; [exact Hst|]. split; [repeat split|].
      split; [right; split; [reflexivity|now symmetry]|exact Hg].
    + change (fin1 resp code (w_n2 w) tl = (t', o)) in Hj.
      assert (Ho : t' = tl /\ exists e, o = Err e).
      { pose proof (finish1_state md5_hex sha256_hex cfg resp code (w_n2 w) tl) as Hs. rewrite Hj in Hs. cbn [fst] in Hs.
        split; [exact Hs|]. unfold finish1 in Hj. change (user tl) with (user t) in Hj.
        destruct Hcase as [(-> & -> & [Hu0|Hu0])|(-> & -> & u & Hu0 & _)]; rewrite Hu0 in Hj.
        - injection Hj as _ <-. eauto.
        - injection Hj as _ <-. eauto.
        - destruct (String.eqb u ""); [injection Hj as _ <-; eauto|]. injection Hj as _ <-.
          cbv beta iota zeta delta [unknown_user]. eexists. reflexivity. }
      destruct Ho as (-> & e & ->).
      assert (Hp1 : p1 = []). { rewrite <- (app_nil_r (log tl)) in Hl1 at 1. apply app_inv_head in Hl1. now symmetry. }
      rewrite Hp1 in Hsv1. split; [exact Hsv1|]. split; [exact Hds|]. split; [exact Hst|]. split; [repeat split|].
      split; [exact Hok|]. cbn [greeted]. intros ((_ & [Hk|Hk] & _) & _); [|congruence].
      destruct Hok as [Hok|(_ & Hok)]; [|congruence]. rewrite Hk in Hok.
      destruct Hcase as [(_ & _ & [Hu0|Hu0])|(_ & _ & u & Hu0 & Hne)]; congruence.
Qed.

Lemma hs1_step w t t' o p q h d d' :
  hs1 w t = (t', o) -> log t' = log t ++ p -> serv h w d (p ++ q) d' -> user_ok t ->
  exists d1, serv h w d1 q d' /\ dv_sessions d1 = dv_sessions d /\ dv_state d1 = dv_state d /\
    same_rest t t' /\ user_ok t' /\ greeted h w t' d1 o.
Proof.
  intros H Hl Hsv Hok. unfold handshake1 in H. destruct (user t) as [u|] eqn:Eu.
  2:{ eapply dflt_step; eauto. }
  destruct (String.eqb u "") eqn:En.
  { apply String.eqb_eq in En. subst u. eapply dflt_step; eauto. }
  apply String.eqb_neq in En.
  match type of H with mbind (post_200 ?a ?b) ?kk t = _ => set (k := kk) in H end.
  assert (Hk : forall j, grows (k j)).
  { intros j. subst k. cbv beta. destruct (truthy j); [|apply grows_dflt].
    apply grows_bind; [apply grows_lift|]. intros less. apply grows_bind.
    - destruct less; [|apply grows_ret]. apply grows_bind; [apply grows_lift|]. intros inner.
      destruct (match inner with Some c => c =? BAD_USERNAME | None => false end); [apply grows_ret|].
      intros t0. apply grows_less.
    - intros [|]; [now apply grows_same|]. apply grows_bind; [apply grows_lift|]. intros c. apply grows_bind.
      + destruct (negb (c =? INVALID_NONCE)); [apply grows_ret|]. apply grows_bind; [apply grows_lift|]. intros; apply grows_ret.
      + intros [|]; [apply grows_dflt|apply grows_fin]. }
  destruct (hello_step false u (w_n1 w) (w_hello w) k t t' o p q h w d d' H Hk Hl eq_refl Hsv)
    as (d1 & p1 & -> & Hsv1 & Hds & Hst & Hr).
  destruct Hr as [(e & -> & -> & -> & Hf)|(j & Hj & Hl1 & Hr)].
  - exists d1. split; [exact Hsv1|]. split; [exact Hds|]. split; [exact Hst|]. split; [repeat split|]. split; [exact Hok|].
    cbn [greeted]. intros (_ & Hf' & _). congruence.
  - set (tl := add_log (PHello false u (w_n1 w)) t) in *. subst k. cbv beta in Hj.
    destruct Hr as [(Hu & -> & Hd)|(Hu & ->)].
    + change (fin1 (Some (conf (w_n1 w) (k_nonce (h_hello h)))) (Some (-40413)) (w_n1 w) tl = (t', o)) in Hj.
      destruct (conf_greeted h w (w_n1 w) (k_nonce (h_hello h)) tl d1) as (o' & Ho & Hg).
      { left. auto. } { change (user tl) with (user t). now rewrite Eu, Hu. } { exact Hd. }
      rewrite Ho in Hj. injection Hj as <- <-.
      assert (Hp1 : p1 = []). { rewrite <- (app_nil_r (log tl)) in Hl1 at 1. apply app_inv_head in Hl1. now symmetry. }
      rewrite Hp1 in Hsv1. exists d1. split; [exact Hsv1|]. split; [exact Hds|]. split; [exact Hst|]. split; [repeat split|].
      split; [exact Hok|exact Hg].
    + change (dflt w (Some unknown_user) (Some (-40401)) tl = (t', o)) in Hj.
      destruct (dflt_step w _ _ tl t' o p1 q h d1 d' Hj Hl1 Hsv1 Hok) as (d2 & A & B & C & D & E & F).
      { right. split; [reflexivity|]. split; [reflexivity|]. exists u. auto. }
      exists d2. split; [exact A|]. split; [congruence|]. split; [congruence|]. split; [exact D|]. auto.
Qed.

Lemma at_put x (d : device S) : at_stok S (ds_stok x) (put_session S x d) = Some x.
Proof. unfold at_stok, put_session. cbn [dv_sessions find]. now rewrite String.eqb_refl. Qed.

(** The client's session and the camera's by its token are the same. *)
Definition tied (t : cam) (d : device S) (s : bytes * bytes) (k n p : string) (q : Z) : Prop :=
  sess t = Some s /\ length (snd s) = block /\ url t = Some k /\ nonce t = Some n /\ pwdh t = Some p /\ seq t = Some q /\
  forall x, at_stok S k d = Some x -> ds_key x = s.
(** What always holds of the client. *)
Definition linked (t : cam) (d : device S) : Prop :=
  secure t = true /\ user_ok t /\
  (st t = ESTABLISHED -> exists s k n p q, tied t d s k n p q).
Definition alive (t : cam) (d : device S) : Prop :=
  secure t = true /\ user_ok t /\
  (st t = ESTABLISHED -> exists s k n q x, tied t d s k n pass q /\
     at_stok S k d = Some x /\ ds_local x = n /\ ds_seq x = q).

Lemma hs2_step w n server ph t t' o p q h d d' :
  hs2 w n server ph t = (t', o) -> log t' = log t ++ p -> serv h w d (p ++ q) d' ->
  secure t = true -> user_ok t -> st t = HANDSHAKE_REQUIRED ->
  dv_hello d = Some (n, server) -> user t = Some user_d ->
  sha256_hex (lit n ++ lit pass ++ lit server) = sha256_hex (lit n ++ lit ph ++ lit server) ->
  exists d1, serv h w d1 q d' /\ dv_state d1 = dv_state d /\ linked t' d1 /\
    (match o with Ok _ => st t' = ESTABLISHED | Err _ => True end) /\
    (ph = pass -> healthy md5_hex sha256_hex cfg h w -> o = Ok tt /\ alive t' d1).
Proof.
  intros H Hl Hsv Hsec Hok Hst Hd Hu Heq. unfold handshake2 in H.
  match type of H with mbind (post_200 ?a ?b) ?kk t = _ => set (k := kk) in H end.
  assert (Hk : forall j, grows (k j)).
  { intros j. subst k. cbv beta. apply grows_bind; [apply grows_lift|]. intros c.
    destruct (c =? INVALID_NONCE); [apply grows_fail|]. apply grows_bind; [apply grows_code|]. intros _.
    apply grows_bind; [apply grows_lift|]. intros [| |z| | | |]; try apply grows_fail.
    apply grows_bind; [now apply grows_same|]. intros _. apply grows_bind; [apply grows_lift|]. intros stok. now apply grows_same. }
  rewrite Hu in H.
  set (dg := digest_password sha256_hex n server ph) in *.
  set (tl := add_log (PProof (Some user_d) n dg) t) in *.
  unfold mbind in H. rewrite post_200_spec in H. fold tl in H.
  assert (Hp : exists p1, p = PProof (Some user_d) n dg :: p1 /\ log t' = log tl ++ p1).
  { assert (Hg : exists p1, log t' = log tl ++ p1).
    { destruct (w_proof w) as [[stt j]|e]; [destruct (stt =? 200)|].
      - destruct (Hk j tl) as (p1 & Hp1). rewrite H in Hp1. eauto.
      - injection H as <- <-. exists []. now rewrite app_nil_r.
      - injection H as <- <-. exists []. now rewrite app_nil_r. }
    destruct Hg as (p1 & Hg). exists p1. split; [|exact Hg]. rewrite Hg in Hl. unfold tl in Hl. cbn [log add_log] in Hl.
    rewrite <- app_assoc in Hl. apply app_inv_head in Hl. symmetry. exact Hl. }
  destruct Hp as (p1 & -> & Hl1). cbn [List.app] in Hsv. apply served_one in Hsv. destruct Hsv as (d1 & Hsv & Hon).
  assert (Nil : t' = tl -> p1 = []).
  { intros ->. rewrite <- (app_nil_r (log tl)) in Hl1 at 1. apply app_inv_head in Hl1. now symmetry. }
  assert (LT : forall dx, linked tl dx).
  { intros dx. split; [exact Hsec|]. split; [exact Hok|]. intros N. change (st tl) with (st t) in N. congruence. }
  unfold on_proof, lost in Hon. rewrite Hd, !String.eqb_refl in Hon. cbn [andb] in Hon.
  assert (Lost : forall e, w_proof w = Err e -> t' = tl /\ o = Err e).
  { intros e E. rewrite E in H. now injection H as <- <-. }
  destruct (String.eqb dg (sha256_hex (lit pass ++ lit n ++ lit server)%list ++ n ++ server)) eqn:Edg.
  - destruct (g_fate (h_proof h)) eqn:Ef; cbn [fst snd] in Hon; injection Hon as <- Er.
    + rewrite <- Er in H. change (200 =? 200) with true in H. cbv iota in H.
      set (t2 := mkCam ESTABLISHED (secure tl) (user tl) (Some (str_json (JStr (g_stok (h_proof h))))) (Some (g_seq (h_proof h)))
                 (Some (encryption_token sha256_hex sha256 "lsk" n server ph, encryption_token sha256_hex sha256 "ivb" n server ph))
                 (Some ph) (Some n) (log tl)).
      assert (E : (t', o) = (t2, Ok tt)) by (rewrite <- H; reflexivity). injection E as -> ->.
      assert (Hp1 : p1 = []). { change (log t2) with (log tl) in Hl1. rewrite <- (app_nil_r (log tl)) in Hl1 at 1. apply app_inv_head in Hl1. now symmetry. }
      subst p1. eexists. split; [exact Hsv|]. split; [reflexivity|].
      set (xs := mkD (g_stok (h_proof h)) (derived sha256_hex sha256 pass "lsk" n server, derived sha256_hex sha256 pass "ivb" n server) n (g_seq (h_proof h))).
      pose proof (at_put xs (mkDev None (dv_sessions d) (dv_state d))) as Hat. cbn [ds_stok xs] in Hat.
      assert (HT : tied t2 (put_session S xs (mkDev None (dv_sessions d) (dv_state d)))
                     (encryption_token sha256_hex sha256 "lsk" n server ph, encryption_token sha256_hex sha256 "ivb" n server ph)
                     (g_stok (h_proof h)) n ph (g_seq (h_proof h))).
      { split; [reflexivity|]. split; [cbn [snd]; unfold encryption_token; rewrite firstn_length, sha_length; reflexivity|].
        split; [cbn [url t2]; now rewrite str_text|]. split; [reflexivity|]. split; [reflexivity|]. split; [reflexivity|].
        intros x Hx. rewrite Hat in Hx. injection Hx as <-. cbn [ds_key xs]. unfold derived, encryption_token. now rewrite Heq. }
      split; [split; [exact Hsec|]; split; [exact Hok|]; intros _; do 5 eexists; exact HT|].
      split; [reflexivity|]. intros -> _. split; [reflexivity|].
      split; [exact Hsec|]. split; [exact Hok|]. intros _. do 5 eexists. split; [exact HT|]. split; [exact Hat|]. split; reflexivity.
    + destruct (Lost _ (eq_sym Er)) as (-> & ->). rewrite (Nil eq_refl) in Hsv. eexists. split; [exact Hsv|]. split; [reflexivity|].
      split; [apply LT|]. split; [exact I|]. intros _ (_ & _ & N & _). congruence.
    + destruct (Lost _ (eq_sym Er)) as (-> & ->). rewrite (Nil eq_refl) in Hsv. eexists. split; [exact Hsv|]. split; [reflexivity|].
      split; [apply LT|]. split; [exact I|]. intros _ (_ & _ & N & _). congruence.
  - assert (Hph : ph <> pass).
    { intros ->. apply String.eqb_neq in Edg. apply Edg. reflexivity. }
    destruct (g_fate (h_proof h)) eqn:Ef; cbn [fst snd] in Hon; injection Hon as <- Er.
    + rewrite <- Er in H. change (200 =? 200) with true in H. cbv iota in H.
      assert (E : (t', o) = (tl, Err (KAuth None))) by (rewrite <- H; reflexivity). injection E as -> ->.
      rewrite (Nil eq_refl) in Hsv. eexists. split; [exact Hsv|]. split; [reflexivity|].
      split; [apply LT|]. split; [exact I|]. intros N. congruence.
    + destruct (Lost _ (eq_sym Er)) as (-> & ->). rewrite (Nil eq_refl) in Hsv. eexists. split; [exact Hsv|]. split; [reflexivity|].
      split; [apply LT|]. split; [exact I|]. intros N. congruence.
    + destruct (Lost _ (eq_sym Er)) as (-> & ->). rewrite (Nil eq_refl) in Hsv. eexists. split; [exact Hsv|]. split; [reflexivity|].
      split; [apply LT|]. split; [exact I|]. intros N. congruence.
Qed.

Lemma grows_hs1 w : grows (hs1 w).
Proof.
  intros t. unfold handshake1. destruct (user t) as [u|]; [|apply grows_dflt].
  destruct (String.eqb u ""); [apply grows_dflt|].
  revert t. apply grows_bind; [apply grows_post|]. intros j. destruct (truthy j); [|apply grows_dflt].
  apply grows_bind; [apply grows_lift|]. intros less. apply grows_bind.
  - destruct less; [|apply grows_ret]. apply grows_bind; [apply grows_lift|]. intros inner.
    destruct (match inner with Some c => c =? BAD_USERNAME | None => false end); [apply grows_ret|].
    intros t0. apply grows_less.
  - intros [|]; [now apply grows_same|]. apply grows_bind; [apply grows_lift|]. intros c. apply grows_bind.
    + destruct (negb (c =? INVALID_NONCE)); [apply grows_ret|]. apply grows_bind; [apply grows_lift|]. intros; apply grows_ret.
    + intros [|]; [apply grows_dflt|apply grows_fin].
Qed.
Lemma grows_hs2 w n s p : grows (hs2 w n s p).
Proof.
  intros t. unfold handshake2. revert t.
  assert (forall f : cam -> M cam unit, (forall t0, grows (f t0)) -> grows (fun t => f t t)) as G by (intros f Hf t; apply Hf).
  apply (G (fun t0 => _)). intros t0. apply grows_bind; [apply grows_post|]. intros j.
  apply grows_bind; [apply grows_lift|]. intros c.
  destruct (c =? INVALID_NONCE); [apply grows_fail|]. apply grows_bind; [apply grows_code|]. intros _.
  apply grows_bind; [apply grows_lift|]. intros [| |z| | | |]; try apply grows_fail.
  apply grows_bind; [now apply grows_same|]. intros _. apply grows_bind; [apply grows_lift|]. intros stok. now apply grows_same.
Qed.

Lemma hs_step w t t' o p q h d d' :
  hs w t = (t', o) -> log t' = log t ++ p -> serv h w d (p ++ q) d' ->
  secure t = true -> user_ok t -> st t = HANDSHAKE_REQUIRED ->
  exists d1, serv h w d1 q d' /\ dv_state d1 = dv_state d /\ linked t' d1 /\
    (match o with Ok _ => st t' = ESTABLISHED | Err _ => True end) /\
    (knows md5_hex sha256_hex cfg user_d pass -> healthy md5_hex sha256_hex cfg h w -> o = Ok tt /\ alive t' d1).
Proof.
  intros H Hl Hsv Hsec Hok Hst. unfold handshake in H.
  assert (Gr : forall r : option (string * string * string), grows (match r with
      | Some (local, server, pwd) => hs2 w local server pwd | None => mret tt end)).
  { intros [[[n s] ph]|]; [apply grows_hs2|apply grows_ret]. }
  destruct (bind_split _ _ _ _ _ _ H (grows_hs1 w) Gr Hl) as (t1 & o1 & p1 & p2 & E1 & Hl1 & -> & H2).
  rewrite <- app_assoc in Hsv.
  destruct (hs1_step w t t1 o1 p1 (p2 ++ q) h d d' E1 Hl1 Hsv Hok) as (d1 & Hsv1 & Hds & Hs & (R1 & R2 & _) & Hok1 & Hg).
  destruct o1 as [[[[n server] ph]|]|e].
  - destruct H2 as (H2 & Hl2). destruct Hg as (G1 & G2 & G3 & G4).
    destruct (hs2_step w n server ph t1 t' o p2 q h d1 d' H2 Hl2 Hsv1) as (d2 & A & B & C & D & E); try congruence.
    exists d2. split; [exact A|]. split; [congruence|]. split; [exact C|]. split; [exact D|]. auto.
  - destruct Hg.
  - destruct H2 as (-> & -> & ->). exists d1. split; [exact Hsv1|]. split; [exact Hs|].
    split; [split; [congruence|]; split; [exact Hok1|]; intros N; congruence|]. split; [exact I|].
    intros K1 K2. destruct Hg. auto.
Qed.

Definition effect (m : bytes) (d d1 : device S) (r : res Base.json) : Prop :=
  (dv_state d1 = dv_state d /\ exists e, r = Err e) \/
  (dv_state d1 = fst (app (dv_state d) m) /\ (r = und (snd (app (dv_state d) m)) \/ exists e, r = Err e)).
Definition done (m : bytes) (d d1 : device S) (r : res Base.json) : Prop :=
  dv_state d1 = fst (app (dv_state d) m) /\ r = und (snd (app (dv_state d) m)).

Lemma secure_step w m t t' r p h d d' :
  secures w m t = (t', r) -> log t' = log t ++ p -> serv h w d p d' -> linked t d -> st t = ESTABLISHED ->
  linked t' d' /\ effect m d d' r /\
  (healthy md5_hex sha256_hex cfg h w -> alive t d -> alive t' d' /\ done m d d' r).
Proof.
  intros H Hl Hsv (L1 & L2 & L3) Hst. destruct (L3 Hst) as (s & k & n & ph & q & T1 & T2 & T3 & T4 & T5 & T6 & T7).
  unfold send_secure in H. rewrite Hst, T1, T3, T4, T5, T6 in H.
  destruct (cbc_encrypt_ok enc_block (fst s) (snd s) (pkcs7_pad m) (pad_whole m)) as (ct & Hct).
  assert (Hen : Aes_Model.aes_encrypt enc_block s m = Ok (b64encode ct)) by (unfold Aes_Model.aes_encrypt; now rewrite Hct).
  rewrite Hen in H.
  set (payload := b64encode ct) in *.
  set (tag := tag_of sha256_hex str_int (wrap payload) n ph q) in *.
  set (t1 := mkCam ESTABLISHED (secure t) (user t) (Some k) (Some (q + 1)) (Some s) (Some ph) (Some n)
                   (log t ++ [PSecure (Some k) payload q tag])) in *.
  assert (Hop : forall x, ds_key x = s -> opened dec_block x payload = Some m).
  { intros x Hx. unfold opened. rewrite Hx. unfold payload. rewrite b64_round_trip.
    rewrite (cbc_round_trip enc_block dec_block enc_length dec_enc _ _ _ _ T2 Hct). now rewrite unpad_pad. }
  assert (Hlog : log t' = log t1).
  { destruct (w_req w) as [[stt j]|e]; [|now injection H as <- <-].
    destruct (stt =? 500); [now injection H as <- <-|]. destruct (negb (stt =? 200)); [now injection H as <- <-|].
    unfold mbind, mlift in H. pose proof (proj1 (conj (fun tt => ltac:(
       unfold handle_code; destruct (response_error j) as [a|];
       [destruct (a =? 0); [reflexivity|]; destruct (zmem a smart_retryable_errors); [reflexivity|];
        destruct (zmem a smart_authentication_errors); reflexivity|reflexivity]) : log (fst (handle_code j tt)) = log tt) I) t1) as Hh.
    destruct (handle_code j t1) as [t2 [u|e]]; injection H as <- <-; exact Hh. }
  rewrite Hlog in Hl. cbn [log t1] in Hl. apply app_inv_head in Hl. subst p.
  apply served_one in Hsv. destruct Hsv as (d1 & Hsv & Hon). apply served_none in Hsv. subst d1.
  set (pc := h_request h) in *. unfold on_secure in Hon.
  set (o := match at_stok S k d with
        | Some x =>
            if (q =? ds_seq x) && String.eqb tag (tag_for sha256_hex str_int wrap pass x payload q) then
              match opened dec_block x payload with
              | Some m =>
                  let (s', answer) := app (dv_state d) m in
                  let d1 := put_session S (mkD k (ds_key x) (ds_local x) (ds_seq x + 1)) d in
                  (mkDev (dv_hello d1) (dv_sessions d1) s', (200, sealed enc_block x answer))
              | None => (d, no_session)
              end
            else (d, no_session)
        | None => (d, no_session)
        end) in *.
  assert (Ho : (o = (d, no_session) /\ ~ alive t d) \/
     exists x, at_stok S k d = Some x /\ ds_key x = s /\ ds_seq x = q /\
       o = (mkDev (dv_hello d) (dv_sessions (put_session S (mkD k s (ds_local x) (q + 1)) d)) (fst (app (dv_state d) m)),
            (200, sealed enc_block x (snd (app (dv_state d) m))))).
  { assert (Al : alive t d -> exists x, at_stok S k d = Some x /\ ds_local x = n /\ ds_seq x = q /\ ph = pass).
    { intros (_ & _ & HA). destruct (HA Hst) as (s2 & k2 & n2 & q2 & x & (_ & _ & U3 & U4 & U5 & U6 & _) & Hx & Hn & Hq).
      rewrite T3 in U3. injection U3 as <-. rewrite T4 in U4. injection U4 as <-. rewrite T5 in U5. injection U5 as <-.
      rewrite T6 in U6. injection U6 as <-. exists x. auto. }
    subst o. destruct (at_stok S k d) as [x|] eqn:Ex.
    2:{ left. split; [reflexivity|]. intros HA. destruct (Al HA) as (x & N & _). discriminate. }
    destruct ((q =? ds_seq x) && String.eqb tag (tag_for sha256_hex str_int wrap pass x payload q)) eqn:Ec.
    - apply andb_prop in Ec. destruct Ec as (Ec & _). apply Z.eqb_eq in Ec.
      pose proof (T7 x eq_refl) as Hk. rewrite (Hop x Hk). right. exists x. split; [reflexivity|]. split; [exact Hk|].
      split; [now symmetry|]. rewrite Hk, <- Ec. now destruct (app (dv_state d) m).
    - left. split; [reflexivity|]. intros HA. destruct (Al HA) as (x' & Hx' & Hn & Hq & Hp). injection Hx' as <-.
      rewrite Hq, Z.eqb_refl in Ec. cbn [andb] in Ec. apply String.eqb_neq in Ec. apply Ec.
      unfold tag, tag_of, tag_for. now rewrite Hn, Hp. }
  assert (Fail : forall e, w_req w = Err e -> t' = t1 /\ r = Err e).
  { intros e E. rewrite E in H. now injection H as <- <-. }
  assert (LK : forall dx, (forall x, at_stok S k dx = Some x -> ds_key x = s) -> linked t1 dx).
  { intros dx Hdx. split; [exact L1|]. split; [exact L2|]. intros _. do 5 eexists.
    split; [reflexivity|]. split; [exact T2|]. split; [reflexivity|]. split; [reflexivity|]. split; [reflexivity|].
    split; [reflexivity|]. exact Hdx. }
  unfold lost in Hon. destruct Ho as [(Eo & Hno)|(x & Hx & Hk & Hq & Eo)]; rewrite Eo in Hon; cbn [fst snd] in Hon.
  - destruct pc eqn:Ef; injection Hon as <- Er.
    + rewrite <- Er in H. assert (E : (t', r) = (t1, Err (KRetry (Some (-40401))))) by (rewrite <- H; reflexivity).
      injection E as -> ->. split; [now apply LK|]. split; [left; eauto|]. intros _ HA. destruct Hno. exact HA.
    + destruct (Fail _ (eq_sym Er)) as (-> & ->). split; [now apply LK|]. split; [left; eauto|]. intros _ HA. destruct Hno. exact HA.
    + destruct (Fail _ (eq_sym Er)) as (-> & ->). split; [now apply LK|]. split; [left; eauto|]. intros _ HA. destruct Hno. exact HA.
  - set (xs := mkD k s (ds_local x) (q + 1)) in *.
    set (d2 := mkDev (dv_hello d) (dv_sessions (put_session S xs d)) (fst (app (dv_state d) m))) in *.
    assert (Hat : at_stok S k d2 = Some xs) by (exact (at_put xs d)).
    assert (Hky : forall y, at_stok S k d2 = Some y -> ds_key y = s).
    { intros y Hy. rewrite Hat in Hy. injection Hy as <-. reflexivity. }
    destruct pc eqn:Ef; injection Hon as <- Er.
    + destruct (json (dv_state d) m) as (j & Hj).
      destruct (cbc_encrypt_ok enc_block (fst s) (snd s) (pkcs7_pad (snd (app (dv_state d) m))) (pad_whole _)) as (ca & Hca).
      unfold sealed in Er. rewrite Hk, Hca in Er. rewrite <- Er in H.
      change (200 =? 500) with false in H. change (negb (200 =? 200)) with false in H. cbv iota in H.
      assert (E : (t', r) = (t1, Ok j)).
      { rewrite <- H. unfold mbind, mlift.
        match goal with |- context [handle_code ?jj t1] => replace (handle_code jj t1) with (t1, Ok tt) by reflexivity end.
        cbv iota. f_equal.
        match goal with |- context [read_answer _ _ _ ?jj] =>
          transitivity (match Aes_Model.aes_decrypt dec_block s (lit (string_of_list_ascii (b64encode ca))) with
                | Ok text => match json_loads text with Some j => Ok j | None =>
                     match json_loads (lit (string_of_list_ascii (b64encode ca))) with Some j => Ok j | None => Err KKasa end end
                | Err _ => match json_loads (lit (string_of_list_ascii (b64encode ca))) with Some j => Ok j | None => Err KKasa end
                end); [reflexivity|] end.
        unfold Klap_Model.lit. rewrite list_ascii_of_string_of_list_ascii.
        unfold Aes_Model.aes_decrypt. rewrite b64_round_trip. cbn [bind].
        rewrite (cbc_round_trip enc_block dec_block enc_length dec_enc _ _ _ _ T2 Hca). cbn [bind].
        now rewrite unpad_pad, Hj. }
      injection E as -> ->.
      assert (Hu : Ok j = und (snd (app (dv_state d) m))) by (unfold understood; now rewrite Hj).
      split; [now apply LK|]. split; [right; split; [reflexivity|left; exact Hu]|].
      intros _ (_ & _ & HA). split; [|split; [reflexivity|exact Hu]].
      destruct (HA Hst) as (s2 & k2 & n2 & q2 & x2 & (U1 & U2 & U3 & U4 & U5 & U6 & U7) & Hx2 & Hn2 & Hq2).
      rewrite T3 in U3. injection U3 as <-. rewrite Hx in Hx2. injection Hx2 as <-.
      rewrite T4 in U4. injection U4 as <-. rewrite T5 in U5. injection U5 as ->.
      split; [exact L1|]. split; [exact L2|]. intros _. exists s, k, n, (q + 1), xs.
      split; [|split; [exact Hat|split; [exact Hn2|reflexivity]]].
      split; [reflexivity|]. split; [exact T2|]. repeat (split; [reflexivity|]). exact Hky.
    + destruct (Fail _ (eq_sym Er)) as (-> & ->). split; [now apply LK|]. split; [left; eauto|].
      intros (_ & _ & _ & N & _). fold pc in N. congruence.
    + destruct (Fail _ (eq_sym Er)) as (-> & ->). split; [now apply LK|]. split; [right; eauto|].
      intros (_ & _ & _ & N & _). fold pc in N. congruence.
Qed.

Lemma grows_secure w m : grows (secures w m).
Proof.
  intros t. unfold send_secure. destruct (sess t) as [s|]; [|exists []; now rewrite app_nil_r].
  destruct (Aes_Model.aes_encrypt enc_block s m); [|exists []; now rewrite app_nil_r].
  destruct (nonce t); [|exists []; now rewrite app_nil_r]. destruct (pwdh t); [|exists []; now rewrite app_nil_r].
  destruct (seq t); [|exists []; now rewrite app_nil_r].
  match goal with |- context [mkCam _ _ _ _ _ _ _ _ ?ll] => 
    assert (G : exists p, ll = log t ++ p) by eauto; set (l1 := ll) in * end.
  destruct (w_req w) as [[stt j]|e]; [|exact G]. destruct (stt =? 500); [exact G|]. destruct (negb (stt =? 200)); [exact G|].
  match goal with |- context [mbind (handle_code j) ?f ?tt] =>
    destruct (grows_bind (handle_code j) f (grows_code j) (fun _ => grows_lift _) tt) as (p & Hp) end.
  rewrite Hp. cbn [log]. destruct G as (p0 & ->). rewrite <- app_assoc. eauto.
Qed.
Lemma grows_open w m : grows (send_open w m).
Proof.
  intros t. unfold send_open. revert t.
  assert (forall f : cam -> M cam Base.json, (forall t0, grows (f t0)) -> grows (fun t => f t t)) as G by (intros f Hf t; apply Hf).
  apply (G (fun t0 => _)). intros t0. apply grows_bind; [apply grows_post|]. intros j.
  apply grows_bind; [apply grows_code|]. intros _. apply grows_ret.
Qed.

Lemma alive_linked t d : alive t d -> linked t d.
Proof.
  intros (A & B & C). split; [exact A|]. split; [exact B|]. intros D. destruct (C D) as (s & k & n & q & x & HT & _).
  do 5 eexists. exact HT.
Qed.

Lemma send_step w m t t' r h d d1 :
  sends w m t = (t', r) -> log t = [] -> linked t d -> serv h w d (log t') d1 ->
  linked t' d1 /\ effect m d d1 r /\
  (healthy md5_hex sha256_hex cfg h w -> knows md5_hex sha256_hex cfg user_d pass -> alive t d -> alive t' d1 /\ done m d d1 r).
Proof.
  intros H Hlog HL Hsv. pose proof HL as (L1 & L2 & L3). unfold send in H.
  destruct (bind_split _ _ _ _ _ (log t') H) as (t1 & o1 & p1 & p2 & E1 & Hl1 & Hp & H2).
  { intros t0. destruct (st t0); [|exists []; now rewrite app_nil_r]. unfold handshake.
    apply grows_bind; [apply grows_hs1|]. intros [[[n s] ph]|]; [apply grows_hs2|apply grows_ret]. }
  { intros _ t0. destruct (secure t0); [apply grows_secure|apply grows_open]. }
  { now rewrite Hlog. }
  rewrite Hp in Hsv. cbv beta in E1. destruct (st t) eqn:Est.
  - destruct (hs_step w t t1 o1 p1 p2 h d d1 E1 Hl1 Hsv L1 L2 Est) as (d2 & Hsv2 & Hs & HL1 & Hes & Hg).
    destruct o1 as [u|e].
    + destruct H2 as (H2 & Hl2). pose proof HL1 as (S1 & _). cbv beta in H2. rewrite S1 in H2.
      destruct (secure_step w m t1 t' r p2 h d2 d1 H2 Hl2 Hsv2 HL1 Hes) as (A & B & C).
      split; [exact A|]. split; [unfold effect; rewrite <- Hs; exact B|].
      intros Hh Hk _. unfold done. rewrite <- Hs. apply C; [exact Hh|]. now apply Hg.
    + destruct H2 as (-> & -> & ->). apply served_none in Hsv2. subst d2.
      split; [exact HL1|]. split; [left; eauto|]. intros Hh Hk _. destruct (Hg Hk Hh) as (N & _). discriminate.
  - injection E1 as <- <-. destruct H2 as (H2 & Hl2). cbv beta in H2. rewrite L1 in H2.
    rewrite <- (app_nil_r (log t)) in Hl1 at 1. apply app_inv_head in Hl1. subst p1. cbn [List.app] in Hsv.
    destruct (secure_step w m t t' r p2 h d d1 H2 Hl2 Hsv HL Est) as (A & B & C).
    split; [exact A|]. split; [exact B|]. intros Hh _ HA. now apply C.
Qed.

Lemma forget_at keep k d x :
  at_stok S k (mkDev None (filter (fun x => keep (ds_stok x)) (dv_sessions d)) (dv_state d)) = Some x ->
  at_stok S k d = Some x.
Proof.
  unfold at_stok. cbn [dv_sessions]. induction (dv_sessions d) as [|y l IH]; cbn [filter find]; [discriminate|].
  destruct (keep (ds_stok y)) eqn:Ek; cbn [find].
  - destruct (String.eqb (ds_stok y) k); auto.
  - intros H. destruct (String.eqb (ds_stok y) k) eqn:Eq; [|auto].
    exfalso. apply String.eqb_eq in Eq. subst k. apply find_some in H. destruct H as (Hin & Hk).
    apply String.eqb_eq in Hk. apply filter_In in Hin. destruct Hin as (_ & Hin). congruence.
Qed.
Lemma reset_alive t d d' : linked t d -> alive (reset t) d'.
Proof. intros (A & B & _). split; [exact A|]. split; [exact B|]. intros N. discriminate. Qed.

Lemma together_linked t d es y outs : togeth (t, d) es y outs -> linked t d ->
  linked (fst y) (snd y) /\
  Forall (fun o => let '(m, s, s', r) := o in
    (s' = s /\ exists e, r = Err e) \/
    (s' = fst (app s m) /\ (r = und (snd (app s m)) \/ exists e, r = Err e))) outs.
Proof.
  intros HT. remember (t, d) as x eqn:Ex. revert t d Ex. induction HT; intros ta da Ex HL.
  - subst. split; [exact HL|constructor].
  - injection Ex as -> ->.
    assert (HL0 : linked (cleared ta) da) by exact HL.
    destruct (send_step _ _ _ _ _ _ _ _ H eq_refl HL0 H0) as (HL' & Heff & _).
    destruct (IHHT _ _ eq_refl HL') as (A & B). split; [exact A|]. constructor; [exact Heff|exact B].
  - injection Ex as -> ->. apply (IHHT _ _ eq_refl). apply alive_linked, (reset_alive _ _ _ HL).
  - injection Ex as -> ->. apply (IHHT _ _ eq_refl). exact HL.
  - injection Ex as -> ->. apply (IHHT _ _ eq_refl). destruct HL as (A & B & C). split; [exact A|]. split; [exact B|].
    intros D. destruct (C D) as (s & k & n & ph & q & T1 & T2 & T3 & T4 & T5 & T6 & T7). exists s, k, n, ph, q.
    repeat (split; [assumption|]). intros z Hz. apply T7. now apply forget_at in Hz.
Qed.

Lemma together_alive t d es y outs : togeth (t, d) es y outs -> alive t d -> knows md5_hex sha256_hex cfg user_d pass ->
  all_healthy md5_hex sha256_hex cfg S es ->
  dv_state (snd y) = fst (directly json_loads S app (dv_state d) es) /\
  map snd outs = snd (directly json_loads S app (dv_state d) es).
Proof.
  intros HT. remember (t, d) as x eqn:Ex. revert t d Ex. induction HT; intros ta da Ex HL Hkn Hh.
  - subst. repeat split.
  - injection Ex as -> ->. inversion Hh as [|? ? Hh1 Hh2]; subst.
    assert (HA0 : alive (cleared ta) da) by exact HL.
    destruct (send_step _ _ _ _ _ _ _ _ H eq_refl (alive_linked _ _ HA0) H0) as (_ & _ & Hg).
    destruct (Hg Hh1 Hkn HA0) as (HA & Hs & Hr).
    destruct (IHHT _ _ eq_refl HA Hkn Hh2) as (B & C).
    cbn [directly]. rewrite Hs in B, C. destruct (app (dv_state da) m) as [s1 ans]. cbn [fst snd] in *.
    destruct (directly json_loads S app s1 es) as [s2 rs]. cbn [fst snd map] in *. split; [exact B|]. now rewrite Hr, C.
  - injection Ex as -> ->. inversion Hh as [|? ? Hh1 Hh2]; subst. apply (IHHT _ _ eq_refl); auto.
    apply (reset_alive _ _ _ (alive_linked _ _ HL)).
  - injection Ex as -> ->. inversion Hh as [|? ? Hh1 Hh2]; subst.
    destruct (IHHT _ _ eq_refl) with (2 := Hkn) (3 := Hh2) as (B & C); [exact HL|]. split; [exact B|exact C].
  - inversion Hh as [|? ? Hh1 Hh2]. now destruct Hh1.
Qed.

Lemma together_split t d es1 es2 y outs : togeth (t, d) (es1 ++ es2) y outs ->
  exists t1 d1 o1 o2, togeth (t, d) es1 (t1, d1) o1 /\ togeth (t1, d1) es2 y o2 /\ outs = o1 ++ o2.
Proof.
  revert t d outs. induction es1 as [|e es1 IH]; intros t d outs H; cbn [List.app] in H.
  - exists t, d, [], outs. split; [constructor|]. split; [exact H|reflexivity].
  - inversion H; subst;
      match goal with HT : togeth _ (es1 ++ es2) y ?oo |- _ =>
        destruct (IH _ _ _ HT) as (ta & da & o1 & o2 & A & B & ->) end;
      exists ta, da; [exists ((m, dv_state d, dv_state d1, r) :: o1)|exists o1|exists o1|exists o1];
      exists o2; (split; [econstructor; eassumption|split; [exact B|reflexivity]]).
Qed.

Lemma init_linked d : linked (init cfg) d.
Proof.
  split; [reflexivity|]. split; [|intros N; discriminate]. left. cbn [init Cam_Model.user]. 
  unfold user0, user_name, own_creds. destruct (c_creds cfg) as [[a b]|]; [|reflexivity].
  destruct (String.eqb a "" && String.eqb b ""); reflexivity.
Qed.
Lemma init_alive d : alive (init cfg) d.
Proof. destruct (init_linked d) as (A & B & _). split; [exact A|]. split; [exact B|]. intros N. discriminate. Qed.
End Peer.

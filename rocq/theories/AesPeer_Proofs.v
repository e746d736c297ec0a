(** Proofs about the AES client and a device together. *)
From Verif Require Import Base Base_Lemmas Py Codes_Model Crypto_Model Crypto_Proofs Aes_Model Aes_Spec Aes_Proofs AesPeer_Spec.
From Verif Require Klap_Model.
Open Scope Z_scope.

Section Peer.
Variables enc_block dec_block : bytes -> bytes -> bytes.
Variable json_loads : bytes -> option json.
Variable open_key : json -> res bytes.
Variable login_text : bool -> bytes.
Variable S : Type.
Variable app : S -> bytes -> S * bytes.
Variable accepts : bytes -> bool.
Variable welcome : string -> bytes.
Variable refusal : bytes.
Hypothesis enc_length : forall key b, length b = block -> length (enc_block key b) = block.
Hypothesis dec_enc : forall key b, length b = block -> dec_block key (enc_block key b) = b.
Hypothesis json : speaks json_loads S app welcome refusal.

Notation passes := (passthrough enc_block dec_block json_loads).
Notation logs := (try_login enc_block dec_block json_loads login_text).
Notation shakes := (perform_handshake open_key).
Notation sends := (send enc_block dec_block json_loads open_key login_text).
Notation on_p := (on_pass enc_block dec_block S app accepts welcome refusal).
Notation serv := (served enc_block dec_block S app accepts welcome refusal).
Notation togeth := (together enc_block dec_block json_loads open_key login_text S app accepts welcome refusal).
Notation und := (understood json_loads).

Lemma at_put x (d : device S) : at_cookie S (ds_cookie x) (put_session S x d) = Some x.
Proof. unfold at_cookie, put_session. cbn [dv_sessions find]. now rewrite String.eqb_refl. Qed.

Lemma handle_log j t : log (fst (handle_code j t)) = log t.
Proof.
  pose proof (handle_code_spec j t) as Hh.
  destruct (code_in j) as [cc|]; [destruct (cc =? 0); [|destruct (auth_code cc)]|].
  - now rewrite Hh.
  - now rewrite Hh.
  - destruct Hh as (? & Hh & _). now rewrite Hh.
  - destruct Hh as (? & Hh & _). now rewrite Hh.
Qed.

(** ** One passthrough *)
Lemma pass_shape mk m t s : sess t = Some s -> length (snd s) = block ->
  exists payload,
    (forall x, ds_key x = s -> opened dec_block x payload = Some m) /\
    let t1 := add_log (mk (match st t with ESTABLISHED => token t | _ => None end) (cookie t) payload) t in
    (forall r, log (fst (passes mk r m t)) = log t1) /\
    (forall e, passes mk (Err e) m t = (t1, Err e)) /\
    passes mk (Ok no_session) m t = (t1, Err (KRetry (Some 9999))) /\
    (forall x ans j, ds_key x = s -> json_loads ans = Some j ->
       passes mk (Ok (200, sealed enc_block x ans)) m t = (t1, Ok j)).
Proof.
  intros Hs Hl. destruct (cbc_encrypt_ok enc_block (fst s) (snd s) (pkcs7_pad m) (pad_whole m)) as (ct & Hct).
  exists (b64encode ct). split; [|cbv zeta; split; [|split; [|split]]].
  - intros x Hx. unfold opened. rewrite Hx, b64_round_trip.
    rewrite (cbc_round_trip enc_block dec_block enc_length dec_enc _ _ _ _ Hl Hct). now rewrite unpad_pad.
  - intros r. unfold passthrough. rewrite Hs. unfold aes_encrypt. rewrite Hct. cbn [bind].
    destruct r as [[stt resp]|e]; [|reflexivity]. destruct (negb (stt =? 200)); [reflexivity|].
    unfold mbind. match goal with |- context [handle_code resp ?tt] =>
      pose proof (handle_log resp tt) as Hh; destruct (handle_code resp tt) as [t2 [u|e]] end; exact Hh.
  - intros e. unfold passthrough. rewrite Hs. unfold aes_encrypt. rewrite Hct. reflexivity.
  - unfold passthrough. rewrite Hs. unfold aes_encrypt. rewrite Hct. reflexivity.
  - intros x ans j Hx Hj. unfold passthrough. rewrite Hs. unfold aes_encrypt. rewrite Hct. cbn [bind].
    unfold sealed. rewrite Hx.
    destruct (cbc_encrypt_ok enc_block (fst s) (snd s) (pkcs7_pad ans) (pad_whole ans)) as (ca & Hca).
    rewrite Hca. change (negb (200 =? 200)) with false. cbv iota.
    unfold mbind, handle_code. cbn -[aes_decrypt Klap_Model.lit]. unfold mlift. cbn -[aes_decrypt Klap_Model.lit].
    unfold Klap_Model.lit. rewrite list_ascii_of_string_of_list_ascii.
    unfold aes_decrypt. rewrite b64_round_trip. cbn [bind].
    rewrite (cbc_round_trip enc_block dec_block enc_length dec_enc _ _ _ _ Hl Hca). cbn [bind].
    rewrite unpad_pad, Hj. reflexivity.
Qed.

(** The client's session and the device's by its cookie are the same. *)
Definition tied (t : aes) (d : device S) (s : bytes * bytes) (k : string) : Prop :=
  sess t = Some s /\ length (snd s) = block /\ cookie t = Some k /\
  forall x, at_cookie S k d = Some x -> ds_key x = s.
Definition in_life (w : world) (d : device S) (k : string) : Prop :=
  exists x, at_cookie S k d = Some x /\ w_now w + 600 < ds_until x.
Definition same_until (k : string) (d d1 : device S) : Prop :=
  forall x, at_cookie S k d = Some x -> exists y, at_cookie S k d1 = Some y /\ ds_until y = ds_until x.

Lemma served_one h w b d x p d' : serv h w b d (x :: p) d' ->
  exists d1, serv h w (match x with PLogin _ _ _ _ => true | _ => b end) d1 p d' /\
    match x with
    | PHandshake => on_handshake S (if b then h_shake2 h else h_shake h) d =
                      (d1, hs_post (if b then w_hs2 w else w_hs w))
    | PLogin def tok ck pl => on_p (if def then h_login2 h else h_login h) tok ck pl d =
                      (d1, if def then w_login2 w else w_login w)
    | PRequest tok ck pl => on_p (h_request h) tok ck pl d = (d1, w_req w)
    end.
Proof. intros H. inversion H; subst; eexists; split; eauto. Qed.
Lemma served_none h w b d d' : serv h w b d [] d' -> d' = d.
Proof. intros H. now inversion H. Qed.

(** ** Login *)
Lemma login_step def r t t' out s k d h w b dd :
  logs def r t = (t', out) -> st t <> ESTABLISHED -> tied t d s k ->
  exists payload, log t' = log t ++ [PLogin def None (Some k) payload] /\
  forall d1, serv h w b d (PLogin def None (Some k) payload :: dd) d1 ->
  r = (if def then w_login2 w else w_login w) ->
  exists d2, serv h w true d2 dd d1 /\ dv_state d2 = dv_state d /\ expire_at t' = expire_at t /\
    tied t' d2 s k /\
    match out with
    | Ok _ => st t' = ESTABLISHED /\ accepts (login_text def) = true /\
        token t' = Some (JStr (p_token (if def then h_login2 h else h_login h))) /\
        (exists x y, at_cookie S k d = Some x /\ at_cookie S k d2 = Some y /\ ds_until y = ds_until x /\
           ds_token y = Some (p_token (if def then h_login2 h else h_login h)))
    | Err e =>
        (st t' = st t \/ (st t' = HANDSHAKE_REQUIRED /\ e = KAuth (Some (-1501)) /\ accepts (login_text def) = false)) /\
        (healthy_pass w (if def then h_login2 h else h_login h) -> in_life w d k ->
           st t' = HANDSHAKE_REQUIRED /\ e = KAuth (Some (-1501)) /\ accepts (login_text def) = false)
    end.
Proof.
  intros HL Hst (T1 & T2 & T3 & T4).
  destruct (pass_shape (PLogin def) (login_text def) t s T1 T2) as (payload & Hop & Hp). cbv zeta in Hp.
  destruct Hp as (P0 & P1 & P2 & P3).
  assert (Hu : match st t with ESTABLISHED => token t | _ => None end = None) by (destruct (st t); congruence).
  rewrite Hu, T3 in *. set (tl := add_log (PLogin def None (Some k) payload) t) in *.
  assert (Htl : log tl = log t ++ [PLogin def None (Some k) payload] /\ st tl = st t /\ sess tl = sess t /\
                cookie tl = cookie t /\ token tl = token t /\ expire_at tl = expire_at t) by (repeat split).
  destruct Htl as (L1 & L2 & L3 & L4 & L5 & L6).
  exists payload. split.
  { destruct (passes (PLogin def) r (login_text def) t) as [t2 o2] eqn:Ep.
    pose proof (P0 r) as E2. rewrite Ep in E2. cbn [fst] in E2. rewrite L1 in E2.
    unfold try_login, mbind in HL. rewrite Ep in HL. destruct o2 as [j|e']; [|injection HL as <- <-; exact E2].
    pose proof (handle_log j t2) as H4. destruct (handle_code j t2) as [t3 o3]. cbn [fst] in H4.
    destruct o3; [|injection HL as <- <-; congruence].
    unfold mlift in HL. destruct (let! result := jitem "result" j in jitem "token" result);
      injection HL as <- <-; cbn [log]; congruence. }
  intros d1 Hsv Hr. apply served_one in Hsv. destruct Hsv as (d2 & Hsv & Hon).
  exists d2. split; [exact Hsv|]. rewrite <- Hr in Hon. clear Hr Hsv.
  set (pc := if def then h_login2 h else h_login h) in *.
  unfold on_pass in Hon.
  (* what the device did *)
  set (o := match at_cookie S k d with
        | Some x => if p_time pc <? ds_until x then
              match opened dec_block x payload with
              | Some m =>
                      if accepts m
                      then (put_session S (mkD k (ds_key x) (Some (p_token pc)) (ds_until x)) d,
                            (200, sealed enc_block x (welcome (p_token pc))))
                      else (d, (200, sealed enc_block x refusal))
              | None => (d, no_session)
              end
            else (d, no_session)
        | None => (d, no_session) end) in *.
  change (lost S (p_fate pc) d o = (d2, r)) in Hon.
  assert (Ho : (o = (d, no_session) /\ ~ (healthy_pass w pc /\ in_life w d k)) \/
     exists x, at_cookie S k d = Some x /\ ds_key x = s /\
       ((accepts (login_text def) = true /\
         o = (put_session S (mkD k s (Some (p_token pc)) (ds_until x)) d, (200, sealed enc_block x (welcome (p_token pc))))) \/
        (accepts (login_text def) = false /\ o = (d, (200, sealed enc_block x refusal))))).
  { subst o. destruct (at_cookie S k d) as [x|] eqn:Ex.
    2:{ left. split; [reflexivity|]. intros (_ & y & Hy & _). congruence. }
    destruct (p_time pc <? ds_until x) eqn:Et.
    2:{ left. split; [reflexivity|]. intros ((_ & Ht) & y & Hy & Hl). rewrite Ex in Hy. injection Hy as <-.
        apply Z.ltb_ge in Et. lia. }
    pose proof (T4 x eq_refl) as Hk. rewrite (Hop x Hk). right. exists x. split; [reflexivity|]. split; [exact Hk|].
    rewrite Hk. destruct (accepts (login_text def)); auto. }
  assert (Fail : forall e, r = Err e -> t' = tl /\ out = Err e).
  { intros e ->. unfold try_login, mbind in HL. rewrite P1 in HL. now injection HL as <- <-. }
  assert (NoS : r = Ok no_session -> t' = tl /\ out = Err (KRetry (Some 9999))).
  { intros ->. unfold try_login, mbind in HL. rewrite P2 in HL. now injection HL as <- <-. }
  assert (Tl : forall dx, (forall x, at_cookie S k dx = Some x -> ds_key x = s) -> tied tl dx s k).
  { intros dx Hdx. unfold tied. rewrite L3, L4. auto. }
  destruct Ho as [(Eo & Hno)|(x & Ex & Hk & [(Hac & Eo)|(Hac & Eo)])].
  - unfold lost in Hon. rewrite Eo in Hon. cbn [fst snd] in Hon.
    destruct (p_fate pc) eqn:Ef; injection Hon as <- Er.
    + destruct (NoS (eq_sym Er)) as (-> & ->). split; [reflexivity|]. split; [exact L6|].
      split; [now apply Tl|]. split; [now left|]. intros H1 H2. exfalso. auto.
    + destruct (Fail _ (eq_sym Er)) as (-> & ->). split; [reflexivity|]. split; [exact L6|].
      split; [now apply Tl|]. split; [now left|]. intros (H1 & _). congruence.
    + destruct (Fail _ (eq_sym Er)) as (-> & ->). split; [reflexivity|]. split; [exact L6|].
      split; [now apply Tl|]. split; [now left|]. intros (H1 & _). congruence.
  - unfold lost in Hon. rewrite Eo in Hon. cbn [fst snd] in Hon.
    pose proof (at_put (mkD k s (Some (p_token pc)) (ds_until x)) d) as Hat. cbn [ds_cookie] in Hat.
    assert (Hky : forall y, at_cookie S k (put_session S (mkD k s (Some (p_token pc)) (ds_until x)) d) = Some y -> ds_key y = s).
    { intros y Hy. rewrite Hat in Hy. injection Hy as <-. reflexivity. }
    destruct (p_fate pc) eqn:Ef; injection Hon as <- Er.
    + destruct json as (_ & Jw & _). unfold try_login, mbind in HL. rewrite <- Er in HL.
      rewrite (P3 x _ _ Hk (Jw (p_token pc))) in HL. cbn -[tl] in HL. unfold mlift in HL. cbn -[tl] in HL.
      injection HL as <- <-. cbn [st expire_at token]. split; [reflexivity|]. split; [exact L6|].
      split; [exact (conj T1 (conj T2 (conj T3 Hky)))|].
      split; [reflexivity|]. split; [exact Hac|]. split; [reflexivity|].
      exists x. eexists. split; [exact Ex|]. split; [exact Hat|]. split; reflexivity.
    + destruct (Fail _ (eq_sym Er)) as (-> & ->). split; [reflexivity|]. split; [exact L6|].
      split; [now apply Tl|]. split; [now left|]. intros (H1 & _). congruence.
    + destruct (Fail _ (eq_sym Er)) as (-> & ->). split; [reflexivity|]. split; [exact L6|].
      split; [now apply Tl|]. split; [now left|]. intros (H1 & _). congruence.
  - unfold lost in Hon. rewrite Eo in Hon. cbn [fst snd] in Hon.
    destruct (p_fate pc) eqn:Ef; injection Hon as <- Er.
    + destruct json as (_ & _ & Jr). unfold try_login, mbind in HL. rewrite <- Er in HL.
      rewrite (P3 x _ _ Hk Jr) in HL. cbn -[tl] in HL.
      injection HL as <- <-. cbn [st expire_at token]. split; [reflexivity|]. split; [exact L6|].
      split; [exact (conj T1 (conj T2 (conj T3 T4)))|]. split; [right; auto|]. auto.
    + destruct (Fail _ (eq_sym Er)) as (-> & ->). split; [reflexivity|]. split; [exact L6|].
      split; [now apply Tl|]. split; [now left|]. intros (H1 & _). congruence.
    + destruct (Fail _ (eq_sym Er)) as (-> & ->). split; [reflexivity|]. split; [exact L6|].
      split; [now apply Tl|]. split; [now left|]. intros (H1 & _). congruence.
Qed.

(** ** Handshake *)
Lemma shake_step r t t' out h w (b : bool) d dd d1 :
  shakes r t = (t', out) -> r = (if b then w_hs2 w else w_hs w) -> meets open_key h w ->
  let k := if b then h_shake2 h else h_shake h in
  log t' = log t ++ [PHandshake] /\
  (serv h w b d (PHandshake :: dd) d1 ->
   exists d2, serv h w b d2 dd d1 /\ dv_state d2 = dv_state d /\
    match out with
    | Ok _ => st t' = LOGIN_REQUIRED /\ expire_at t' = Some (hs_now r + k_life k - 1200) /\
        tied t' d2 (firstn 16 (k_key k), skipn 16 (k_key k)) (k_cookie k) /\
        exists x, at_cookie S (k_cookie k) d2 = Some x /\ ds_until x = k_time k + k_life k
    | Err e => (st t' = st t /\ expire_at t' = None) /\ (k_fate k <> Answered)
    end).
Proof.
  intros Hk Hr Hm. cbv zeta.
  assert (Hmr : meets_hs open_key (if b then h_shake2 h else h_shake h) r).
  { rewrite Hr. destruct Hm as (M1 & M2). now destruct b. }
  clear Hm. set (k := if b then h_shake2 h else h_shake h) in *. destruct Hmr as (K1 & K2 & K3 & K4).
  unfold perform_handshake in Hk.
  set (t0 := mkAes (st t) None (sess t) None None (log t ++ [PHandshake])) in *.
  split.
  { destruct (hs_post r) as [[stt resp]|e]; [|injection Hk as <- <-; reflexivity].
    destruct (negb (stt =? 200)); [injection Hk as <- <-; reflexivity|].
    pose proof (handle_log resp t0) as H4. destruct (handle_code resp t0) as [t3 [u|e]]; cbn [fst] in H4.
    2: injection Hk as <- <-; exact H4.
    destruct (let! result := jitem "result" resp in jitem "key" result); [|injection Hk as <- <-; exact H4].
    destruct (int_timeout (hs_timeout r)); [|injection Hk as <- <-; exact H4].
    destruct (let! kv := open_key a in new_session kv); injection Hk as <- <-; exact H4. }
  intros Hsv. apply served_one in Hsv. destruct Hsv as (d2 & Hsv & Hon). exists d2. split; [exact Hsv|].
  rewrite <- Hr in Hon. fold k in Hon. unfold on_handshake, lost in Hon.
  destruct (k_fate k) eqn:Ef; cbn [fst snd] in Hon; injection Hon as <- Er.
  2,3: rewrite <- Er in Hk; injection Hk as <- <-; repeat split; try reflexivity; discriminate.
  rewrite <- Er in Hk. change (negb (200 =? 200)) with false in Hk. cbv iota in Hk.
  cbn [handle_code] in Hk.
  match type of Hk with context [handle_code ?jj t0] => replace (handle_code jj t0) with (t0, Ok tt) in Hk by reflexivity end.
  cbv iota in Hk.
  match type of Hk with context [let! result := jitem "result" ?jj in _] =>
    replace (let! result := jitem "result" jj in jitem "key" result) with (Ok (k_wrapped k)) in Hk by reflexivity end.
  rewrite K4 in Hk. cbn [Klap_Model.int_timeout] in Hk. rewrite K2 in Hk. cbn [bind] in Hk.
  rewrite new_session_total, K1 in Hk. cbn [Nat.eqb] in Hk. injection Hk as <- <-.
  cbn [st expire_at]. split; [reflexivity|]. split; [reflexivity|]. split; [reflexivity|].
  pose proof (at_put (mkD (k_cookie k) (firstn 16 (k_key k), skipn 16 (k_key k)) None (k_time k + k_life k)) d) as Hat.
  cbn [ds_cookie] in Hat. split.
  - unfold tied. cbn [sess cookie]. split; [reflexivity|]. split; [cbn [snd]; rewrite skipn_length, K1; reflexivity|].
    split; [exact K3|]. intros x Hx. pose proof (eq_trans (eq_sym Hat) Hx) as Hy. injection Hy as <-. reflexivity.
  - eexists. split; [exact Hat|reflexivity].
Qed.

Lemma shake_ok r t t' u : shakes r t = (t', Ok u) ->
  st t' = LOGIN_REQUIRED /\ cookie t' = hs_cookie r /\ exists s, sess t' = Some s /\ length (snd s) = block.
Proof.
  unfold perform_handshake. intros E.
  destruct (hs_post r) as [[stt resp]|]; [|discriminate].
  destruct (negb (stt =? 200)); [discriminate|]. destruct (handle_code resp _) as [ta [ua|ea]]; [|discriminate].
  destruct (let! result := jitem "result" resp in jitem "key" result); [|discriminate].
  destruct (int_timeout (hs_timeout r)); [|discriminate].
  destruct (open_key a) as [kv|]; [|discriminate]. cbn [bind] in E. rewrite new_session_total in E.
  destruct (Nat.eqb (length kv) 32) eqn:Ek; [|discriminate].
  apply Nat.eqb_eq in Ek. pose proof (skipn_length 16 kv) as Hl. rewrite Ek in Hl.
  set (sk := skipn 16 kv) in *. set (fk := firstn 16 kv) in *. injection E as <- _. cbn [st cookie sess].
  split; [reflexivity|]. split; [reflexivity|]. eexists. split; [reflexivity|]. exact Hl.
Qed.

(** ** Request *)
Lemma request_step m t t' out h w b d d1 s k tk :
  passes PRequest (w_req w) m t = (t', out) -> tied t d s k -> st t = ESTABLISHED -> token t = Some (JStr tk) ->
  exists payload, log t' = log t ++ [PRequest (Some (JStr tk)) (Some k) payload] /\
  (serv h w b d [PRequest (Some (JStr tk)) (Some k) payload] d1 ->
    tied t' d1 s k /\ st t' = ESTABLISHED /\ token t' = token t /\ expire_at t' = expire_at t /\
    dv_sessions d1 = dv_sessions d /\
    ((dv_state d1 = dv_state d /\ exists e, out = Err e) \/
     (dv_state d1 = fst (app (dv_state d) m) /\ (out = und (snd (app (dv_state d) m)) \/ exists e, out = Err e))) /\
    (healthy_pass w (h_request h) ->
      (dv_state d1 = fst (app (dv_state d) m) /\ out = und (snd (app (dv_state d) m))) \/
      (dv_state d1 = dv_state d /\ out = Err (KRetry (Some 9999)) /\
       ~ (in_life w d k /\ exists x, at_cookie S k d = Some x /\ ds_token x = Some tk)))).
Proof.
  intros Hp (T1 & T2 & T3 & T4) Hst Htk.
  destruct (pass_shape PRequest m t s T1 T2) as (payload & Hop & Hq). cbv zeta in Hq. destruct Hq as (P0 & P1 & P2 & P3).
  rewrite Hst, Htk, T3 in *. set (tl := add_log (PRequest (Some (JStr tk)) (Some k) payload) t) in *.
  exists payload. split.
  { pose proof (P0 (w_req w)) as E. rewrite Hp in E. exact E. }
  intros Hsv. apply served_one in Hsv. destruct Hsv as (d2 & Hsv & Hon). apply served_none in Hsv. subst d2.
  set (pc := h_request h) in *. unfold on_pass in Hon.
  set (o := match at_cookie S k d with
        | Some x => if p_time pc <? ds_until x then
              match opened dec_block x payload with
              | Some m =>
                      if match ds_token x with Some tk0 => String.eqb tk0 tk | None => false end
                      then let (s', answer) := app (dv_state d) m in
                           (mkDev (dv_sessions d) s', (200, sealed enc_block x answer))
                      else (d, no_session)
              | None => (d, no_session)
              end
            else (d, no_session)
        | None => (d, no_session) end) in *.
  change (lost S (p_fate pc) d o = (d1, w_req w)) in Hon.
  assert (Ho : (o = (d, no_session) /\ ~ (p_time pc - w_now w <= 600 /\ in_life w d k /\ exists x, at_cookie S k d = Some x /\ ds_token x = Some tk)) \/
     exists x, ds_key x = s /\
       o = (mkDev (dv_sessions d) (fst (app (dv_state d) m)), (200, sealed enc_block x (snd (app (dv_state d) m))))).
  { subst o. destruct (at_cookie S k d) as [x|] eqn:Ex.
    2:{ left. split; [reflexivity|]. intros (_ & _ & y & Hy & _). congruence. }
    destruct (p_time pc <? ds_until x) eqn:Et.
    2:{ left. split; [reflexivity|]. intros (Ht & (y & Hy & Hl) & _). rewrite Ex in Hy. injection Hy as <-.
        apply Z.ltb_ge in Et. lia. }
    pose proof (T4 x eq_refl) as Hk. rewrite (Hop x Hk).
    destruct (ds_token x) as [tk0|] eqn:Etk.
    2:{ left. split; [reflexivity|]. intros (_ & _ & y & Hy & Hl). injection Hy as <-. congruence. }
    destruct (String.eqb tk0 tk) eqn:Eq.
    - right. exists x. split; [exact Hk|]. now destruct (app (dv_state d) m).
    - left. split; [reflexivity|]. intros (_ & _ & y & Hy & Hl). injection Hy as <-.
      apply String.eqb_neq in Eq. congruence. }
  assert (Tl : forall dx, dv_sessions dx = dv_sessions d -> tied tl dx s k).
  { intros dx Hdx. split; [exact T1|]. split; [exact T2|]. split; [exact T3|].
    unfold at_cookie in *. rewrite Hdx. exact T4. }
  assert (Fail : forall e, w_req w = Err e -> t' = tl /\ out = Err e).
  { intros e E. rewrite E, P1 in Hp. now injection Hp as <- <-. }
  destruct Ho as [(Eo & Hno)|(x & Hk & Eo)]; unfold lost in Hon; rewrite Eo in Hon; cbn [fst snd] in Hon.
  - destruct (p_fate pc) eqn:Ef; injection Hon as <- Er.
    + rewrite <- Er, P2 in Hp. injection Hp as <- <-. split; [now apply Tl|]. repeat (split; [assumption || reflexivity|]).
      split; [left; eauto|]. intros (_ & Ht). right. split; [reflexivity|]. split; [reflexivity|]. intros (? & ?). auto.
    + destruct (Fail _ (eq_sym Er)) as (-> & ->). split; [now apply Tl|]. repeat (split; [assumption || reflexivity|]).
      split; [left; eauto|]. intros (H1 & _). congruence.
    + destruct (Fail _ (eq_sym Er)) as (-> & ->). split; [now apply Tl|]. repeat (split; [assumption || reflexivity|]).
      split; [left; eauto|]. intros (H1 & _). congruence.
  - destruct (p_fate pc) eqn:Ef; injection Hon as <- Er.
    + destruct json as (Ja & _). destruct (Ja (dv_state d) m) as (j & Hj).
      rewrite <- Er, (P3 x _ _ Hk Hj) in Hp. injection Hp as <- <-.
      assert (Hu : Ok j = und (snd (app (dv_state d) m))) by (unfold understood; now rewrite Hj).
      split; [now apply Tl|]. repeat (split; [assumption || reflexivity|]).
      split; [right; split; [reflexivity|left; exact Hu]|]. intros _. left. split; [reflexivity|exact Hu].
    + destruct (Fail _ (eq_sym Er)) as (-> & ->). split; [now apply Tl|]. repeat (split; [assumption || reflexivity|]).
      split; [left; eauto|]. intros (H1 & _). congruence.
    + destruct (Fail _ (eq_sym Er)) as (-> & ->). split; [now apply Tl|]. repeat (split; [assumption || reflexivity|]).
      split; [right; split; [reflexivity|right; eauto]|]. intros (H1 & _). congruence.
Qed.

(** ** A send *)
Definition linked (t : aes) (d : device S) : Prop :=
  st t <> HANDSHAKE_REQUIRED -> expire_at t <> None ->
  exists s k, tied t d s k /\ (st t = ESTABLISHED -> exists tk, token t = Some (JStr tk)).
(** … and the device agrees. *)
Definition alive (t : aes) (d : device S) : Prop :=
  st t <> HANDSHAKE_REQUIRED -> forall e, expire_at t = Some e ->
  exists s k x, tied t d s k /\ at_cookie S k d = Some x /\ e + 600 <= ds_until x /\
    (st t = ESTABLISHED -> exists tk, token t = Some (JStr tk) /\ ds_token x = Some tk).

Lemma linked_unexpired t d now : linked t d -> st t <> HANDSHAKE_REQUIRED -> session_expired t now = false ->
  exists s k, tied t d s k /\ (st t = ESTABLISHED -> exists tk, token t = Some (JStr tk)).
Proof.
  intros HL H1 H2. apply HL; [exact H1|]. unfold session_expired in H2. destruct (expire_at t); congruence.
Qed.

Notation performs := (perform_login enc_block dec_block json_loads open_key login_text).

(** Login, perhaps repeated with the default credentials. *)
Lemma perform_step t t' out s k h w b d :
  performs w t = (t', out) -> st t = LOGIN_REQUIRED -> tied t d s k -> meets open_key h w ->
  exists p, log t' = log t ++ p /\
  forall q d1, serv h w b d (p ++ q) d1 ->
  exists d2, serv h w true d2 q d1 /\ dv_state d2 = dv_state d /\ linked t' d2 /\
    (match out with Ok _ => exists s' k' tk, tied t' d2 s' k' /\ st t' = ESTABLISHED /\ token t' = Some (JStr tk) | Err _ => True end) /\
    (healthy h w -> in_life w d k -> accepts (login_text false) = true \/ accepts (login_text true) = true ->
      forall e, expire_at t = Some e -> (forall x, at_cookie S k d = Some x -> e + 600 <= ds_until x) ->
      out = Ok tt /\ exists s' k' tk x e', tied t' d2 s' k' /\ st t' = ESTABLISHED /\ token t' = Some (JStr tk) /\
         at_cookie S k' d2 = Some x /\ ds_token x = Some tk /\ expire_at t' = Some e' /\ e' + 600 <= ds_until x /\
         in_life w d2 k').
Proof.
  intros HP Hst HT Hm. unfold perform_login in HP.
  destruct (logs false (w_login w) t) as [t1 o1] eqn:E1.
  assert (Hne : st t <> ESTABLISHED) by congruence.
  (* the first login alone *)
  assert (Alone : forall o, (t1, o1) = (t', o) -> 
     ~ (exists e, o1 = Err e /\ st t1 = HANDSHAKE_REQUIRED /\ e = KAuth (Some (-1501)) /\ o = o1) ->
     exists p, log t' = log t ++ p /\
      forall q d1, serv h w b d (p ++ q) d1 ->
      exists d2, serv h w true d2 q d1 /\ dv_state d2 = dv_state d /\ linked t' d2 /\
      (match o with Ok _ => exists s' k' tk, tied t' d2 s' k' /\ st t' = ESTABLISHED /\ token t' = Some (JStr tk) | Err _ => True end) /\
      (healthy h w -> in_life w d k -> accepts (login_text false) = true \/ accepts (login_text true) = true ->
       forall e, expire_at t = Some e -> (forall x, at_cookie S k d = Some x -> e + 600 <= ds_until x) ->
       o = Ok tt /\ exists s' k' tk x e', tied t' d2 s' k' /\ st t' = ESTABLISHED /\ token t' = Some (JStr tk) /\
         at_cookie S k' d2 = Some x /\ ds_token x = Some tk /\ expire_at t' = Some e' /\ e' + 600 <= ds_until x /\
         in_life w d2 k')).
  { intros o Eo Hnot. injection Eo as -> ->.
    destruct (login_step false (w_login w) t t' o s k d h w b [] E1 Hne HT) as (payload & Hlog & _).
    exists [PLogin false None (Some k) payload]. split; [exact Hlog|]. intros q d1 Hsv.
    destruct (login_step false (w_login w) t t' o s k d h w b q E1 Hne HT) as (payload' & Hlog' & HX).
    rewrite Hlog in Hlog'. apply app_inv_head in Hlog'. injection Hlog' as <-.
    destruct (HX d1 Hsv eq_refl) as (d2 & Hsv2 & Es & Ee & Ht & Ho). exists d2.
    split; [exact Hsv2|]. split; [exact Es|]. destruct o as [u|e].
    - destruct Ho as (O1 & O2 & O3 & x & y & Hx & Hy & Hu & Hty).
      split; [intros _ _; exists s, k; split; [exact Ht|]; intros _; eauto|].
      split; [exists s, k; eexists; split; [exact Ht|]; split; [exact O1|exact O3]|].
      intros Hh (x' & Hx' & Hl') _ e Hex Hall. rewrite Hx in Hx'. injection Hx' as <-.
      split; [now destruct u|]. exists s, k. do 3 eexists. split; [exact Ht|]. split; [exact O1|]. split; [exact O3|].
      split; [exact Hy|]. split; [exact Hty|]. split; [rewrite Ee; exact Hex|]. rewrite Hu. split; [now apply Hall|].
      exists y. split; [exact Hy|]. now rewrite Hu.
    - destruct Ho as (O1 & O2).
      split.
      + intros N1 N2. exists s, k. split; [exact Ht|]. intros N3. exfalso. destruct O1 as [O1|(O1 & _)]; congruence.
      + split; [exact I|]. intros (_ & _ & Hpl & _) Hlife _ e' _ _. exfalso.
        destruct (O2 Hpl Hlife) as (O3 & O4 & _). apply Hnot. eauto. }
  destruct o1 as [u|e1].
  { apply (Alone _ HP). intros (e & ? & _). discriminate. }
  (* the second round *)
  destruct (login_step false (w_login w) t t1 (Err e1) s k d h w b [] E1 Hne HT) as (payload & Hlog & _).
  assert (Hcase : (exists o, (t1, Err e1) = (t', o) /\ o = out /\ ~ e1 = KAuth (Some (-1501))) \/
     (e1 = KAuth (Some (-1501)) /\
      match (do! _ <- shakes (w_hs2 w) ;; logs true (w_login2 w)) t1 with
      | (t2, Err e) => (t2, Err (relogin_exn e)) | r => r end = (t', out))).
  { destruct e1; try (left; exists out; split; [exact HP|]; split; [reflexivity|discriminate]).
    destruct code as [cc|]; [|left; exists out; split; [exact HP|]; split; [reflexivity|discriminate]].
    destruct (cc =? LOGIN_ERROR) eqn:Ec.
    - right. apply Z.eqb_eq in Ec. subst cc. split; [reflexivity|exact HP].
    - left. exists out. split; [exact HP|]. split; [reflexivity|]. intros [= E]. subst cc. discriminate. }
  destruct Hcase as [(o & Eo & -> & Hno)|(-> & HP2)].
  { apply (Alone _ Eo). intros (e & He & _ & He' & _). congruence. }
  clear HP Alone. unfold mbind in HP2.
  destruct (shakes (w_hs2 w) t1) as [t2 o2] eqn:E2.
  destruct (shake_step (w_hs2 w) t1 t2 o2 h w true d [] d E2 eq_refl Hm) as (Hlog2 & _).
  destruct o2 as [u2|e2].
  - (* the second login *)
    destruct (logs true (w_login2 w) t2) as [t3 o3] eqn:E3.
    assert (Ho3 : t' = t3 /\ match o3 with Ok u => out = Ok u | Err e => out = Err (relogin_exn e) end).
    { destruct o3; injection HP2 as <- <-; split; reflexivity. }
    destruct Ho3 as (-> & Hout).
    (* its log *)
    assert (Hx : exists p3, log t3 = log t2 ++ p3 /\ forall dx s' k', tied t2 dx s' k' -> st t2 = LOGIN_REQUIRED ->
        exists pl, p3 = [PLogin true None (Some k') pl]).
    { destruct (shake_ok _ _ _ _ E2) as (Est2 & Ec2 & s2 & Es2 & El2).
      destruct Hm as (_ & _ & _ & Hck & _). rewrite Hck in Ec2.
      pose proof (login_step true (w_login2 w) t2 t3 o3 s2 (k_cookie (h_shake2 h)) (mkDev [] (dv_state d)) h w b [] E3) as HX.
      destruct HX as (pl & Hpl & _).
      - congruence.
      - split; [exact Es2|]. split; [exact El2|]. split; [exact Ec2|]. intros x Hx. discriminate.
      - eexists. split; [exact Hpl|].
        intros dx s' k' (_ & _ & Hc & _) _. rewrite Ec2 in Hc. injection Hc as <-. eauto. }
    destruct Hx as (p3 & Hlog3 & Hp3).
    exists ([PLogin false None (Some k) payload] ++ [PHandshake] ++ p3). split.
    { rewrite Hlog3, Hlog2, Hlog. now rewrite <- !app_assoc. }
    intros q d1 Hsv. rewrite <- !app_assoc in Hsv. cbn [List.app] in Hsv.
    destruct (login_step false (w_login w) t t1 _ s k d h w b (PHandshake :: p3 ++ q) E1 Hne HT) as (payload' & Hlog' & HX).
    rewrite Hlog in Hlog'. apply app_inv_head in Hlog'. injection Hlog' as <-.
    destruct (HX d1 Hsv eq_refl) as (da & Hsa & Esa & _ & _ & Oa & _).
    destruct (shake_step (w_hs2 w) t1 t2 (Ok u2) h w true da (p3 ++ q) d1 E2 eq_refl Hm) as (_ & HS).
    destruct (HS Hsa) as (db & Hsb & Esb & Est & Eex & Htb & x & Hx & Hux).
    destruct (Hp3 _ _ _ Htb Est) as (pl & ->). cbn [List.app] in Hsb.
    assert (Hne2 : st t2 <> ESTABLISHED) by congruence.
    destruct (login_step true (w_login2 w) t2 t3 o3 _ _ db h w true q E3 Hne2 Htb) as (pl' & Hpl' & HY).
    rewrite Hlog3 in Hpl'. apply app_inv_head in Hpl'. injection Hpl' as <-.
    destruct (HY d1 Hsb eq_refl) as (dc & Hsc & Esc & Eec & Htc & Oc).
    exists dc. split; [exact Hsc|]. split; [congruence|].
    assert (Hlife : healthy h w -> in_life w db (k_cookie (h_shake2 h)) /\
       exists e', expire_at t2 = Some e' /\ e' + 600 <= ds_until x).
    { intros (_ & (_ & C1 & C2 & C3) & _). split.
      - exists x. split; [exact Hx|]. rewrite Hux. lia.
      - eexists. split; [exact Eex|]. rewrite Hux. lia. }
    destruct o3 as [u3|e3].
    + destruct Oc as (O1 & O2 & O3 & xx & y & Hxx & Hy & Hu & Hty). subst out.
      split; [intros _ _; do 2 eexists; split; [exact Htc|]; intros _; eauto|].
      split; [do 3 eexists; split; [exact Htc|]; split; [exact O1|exact O3]|].
      intros Hh _ _ _ _ _. destruct (Hlife Hh) as (_ & e' & He' & Hle). rewrite Hx in Hxx. injection Hxx as <-.
      split; [now destruct u3|]. do 5 eexists. split; [exact Htc|]. split; [exact O1|]. split; [exact O3|].
      split; [exact Hy|]. split; [exact Hty|]. split; [rewrite Eec; exact He'|]. rewrite Hu. split; [exact Hle|].
      exists y. split; [exact Hy|]. rewrite Hu. destruct (Hlife Hh) as ((x2 & Hx2 & Hl2) & _).
      cbv iota in Hx. rewrite Hx in Hx2. now injection Hx2 as <-.
    + destruct Oc as (O1 & O2). subst out.
      split; [intros N1 N2; do 2 eexists; split; [exact Htc|]; intros N3; exfalso; destruct O1 as [O1|(O1 & _)]; congruence|].
      split; [exact I|]. intros Hh Hl0 Hacc e He Hall. exfalso.
      destruct (Hlife Hh) as (Hl2 & _). destruct Hh as (_ & _ & Hpa & Hpb & _).
      destruct (O2 Hpb Hl2) as (_ & _ & Hf).
      destruct Oa as [Oa|(_ & _ & Hf1)].
      * (* the first login was refused by the device, since it was healthy *)
        destruct (login_step false (w_login w) t t1 _ s k d h w b (PHandshake :: [PLogin true None (Some (k_cookie (h_shake2 h))) pl] ++ q) E1 Hne HT)
          as (payload2 & Hlog'' & HX2).
        rewrite Hlog in Hlog''. apply app_inv_head in Hlog''. injection Hlog'' as <-.
        destruct (HX2 d1 Hsv eq_refl) as (_ & _ & _ & _ & _ & _ & Oa2). destruct (Oa2 Hpa Hl0) as (_ & _ & Hf1).
        destruct Hacc; congruence.
      * destruct Hacc; congruence.
  - (* the second handshake failed *)
    injection HP2 as <- <-.
    exists ([PLogin false None (Some k) payload] ++ [PHandshake]). split.
    { rewrite Hlog2, Hlog. now rewrite <- !app_assoc. }
    intros q d1 Hsv. rewrite <- !app_assoc in Hsv. cbn [List.app] in Hsv.
    destruct (login_step false (w_login w) t t1 _ s k d h w b (PHandshake :: q) E1 Hne HT) as (payload' & Hlog' & HX).
    rewrite Hlog in Hlog'. apply app_inv_head in Hlog'. injection Hlog' as <-.
    destruct (HX d1 Hsv eq_refl) as (da & Hsa & Esa & _ & _ & Oa & _).
    destruct (shake_step (w_hs2 w) t1 t2 (Err e2) h w true da q d1 E2 eq_refl Hm) as (_ & HS).
    destruct (HS Hsa) as (db & Hsb & Esb & (_ & Eex) & Hf).
    exists db. split; [exact Hsb|]. split; [congruence|]. split; [intros _ N; congruence|].
    split; [exact I|]. intros (_ & (Hf' & _) & _). congruence.
Qed.

Definition effect (m : bytes) (d d1 : device S) (r : res Base.json) : Prop :=
  (dv_state d1 = dv_state d /\ exists e, r = Err e) \/
  (dv_state d1 = fst (app (dv_state d) m) /\ (r = und (snd (app (dv_state d) m)) \/ exists e, r = Err e)).
Definition done (m : bytes) (d d1 : device S) (r : res Base.json) : Prop :=
  dv_state d1 = fst (app (dv_state d) m) /\ r = und (snd (app (dv_state d) m)).

Lemma alive_linked t d : alive t d -> linked t d.
Proof.
  intros HA H1 H2. destruct (expire_at t) as [e|] eqn:Ee; [|congruence].
  destruct (HA H1 e Ee) as (s & k & x & HT & _ & _ & HK). exists s, k. split; [exact HT|].
  intros H3. destruct (HK H3) as (tk & Htk & _). eauto.
Qed.

(** What follows the handshake. *)
Lemma tail_step w m t t' r h b d s k :
  match (match st t with
         | ESTABLISHED => (t, Ok tt)
         | _ => match performs w t with
                | (t2, Err (KAuth c)) => (set_st HANDSHAKE_REQUIRED t2, Err (KAuth c))
                | r => r
                end
         end) with
  | (t2, Err e) => (t2, Err e)
  | (t2, Ok _) => passes PRequest (w_req w) m t2
  end = (t', r) ->
  st t <> HANDSHAKE_REQUIRED -> tied t d s k -> (st t = ESTABLISHED -> exists tk, token t = Some (JStr tk)) ->
  meets open_key h w ->
  exists p, log t' = log t ++ p /\
  forall d1, serv h w b d p d1 -> linked t' d1 /\ effect m d d1 r /\
    (healthy h w -> knows login_text accepts -> forall e x, expire_at t = Some e -> at_cookie S k d = Some x ->
       e + 600 <= ds_until x -> w_now w + 600 < ds_until x ->
       (st t = ESTABLISHED -> exists tk, token t = Some (JStr tk) /\ ds_token x = Some tk) ->
       alive t' d1 /\ done m d d1 r).
Proof.
  intros HS Hst HT Htk Hm.
  assert (Hcase : (st t = ESTABLISHED /\ passes PRequest (w_req w) m t = (t', r)) \/
    (st t = LOGIN_REQUIRED /\ exists t2 o, performs w t = (t2, o) /\
       match o with
       | Ok _ => passes PRequest (w_req w) m t2 = (t', r)
       | Err e => r = Err e /\ log t' = log t2 /\ (t' = t2 \/ st t' = HANDSHAKE_REQUIRED)
       end)).
  { destruct (st t); [congruence| |left; split; [reflexivity|exact HS]].
    right. split; [reflexivity|]. destruct (performs w t) as [t2 o]. exists t2, o. split; [reflexivity|].
    destruct o as [u|e]; [exact HS|]. destruct e; injection HS as <- <-; cbn; auto. }
  destruct Hcase as [(Hes & HP)|(Hlr & t2 & o & HP & HR)].
  - destruct (Htk Hes) as (tk & Htok).
    destruct (request_step m t t' r h w b d d s k tk HP HT Hes Htok) as (pl & Hlog & _).
    eexists. split; [exact Hlog|]. intros d1 Hsv.
    destruct (request_step m t t' r h w b d d1 s k tk HP HT Hes Htok) as (pl' & Hlog' & HX).
    rewrite Hlog in Hlog'. apply app_inv_head in Hlog'. injection Hlog' as <-.
    destruct (HX Hsv) as (HT' & Hst' & Htk' & Hex' & Hds & Heff & Hok).
    split; [intros _ _; exists s, k; split; [exact HT'|]; intros _; rewrite Htk'; eauto|].
    split; [exact Heff|]. intros Hh _ e x He Hx Hle Hnow Hkn. destruct (Hkn Hes) as (tk0 & Htk0 & Hdt).
    rewrite Htok in Htk0. injection Htk0 as <-.
    split.
    + intros _ e0 He0. rewrite Hex', He in He0. injection He0 as <-. exists s, k, x. split; [exact HT'|].
      unfold at_cookie in *. rewrite Hds. split; [exact Hx|]. split; [exact Hle|]. intros _. rewrite Htk'. eauto.
    + destruct Hh as (_ & _ & _ & _ & Hq). destruct (Hok Hq) as [Hd|(_ & _ & Hno)]; [exact Hd|].
      exfalso. apply Hno. split; [exists x; auto|eauto].
  - destruct (perform_step t t2 o s k h w b d HP Hlr HT Hm) as (p1 & Hlog1 & H1). destruct o as [u|e].
    + (* the request after the login; its log needs the device only for the tie *)
      assert (Hlogs : exists p2, log t' = log t2 ++ p2 /\
         forall dx s' k' tk, tied t2 dx s' k' -> st t2 = ESTABLISHED -> token t2 = Some (JStr tk) ->
           exists pl, p2 = [PRequest (Some (JStr tk)) (Some k') pl]).
      { destruct (sess t2) as [s2|] eqn:Es2.
        - unfold passthrough in HR. rewrite Es2 in HR.
          destruct (aes_encrypt enc_block s2 m) as [pl|] eqn:Ee.
          + exists [PRequest (match st t2 with ESTABLISHED => token t2 | _ => None end) (cookie t2) pl].
            split.
            * destruct (w_req w) as [[stt resp]|]; [|injection HR as <- <-; reflexivity].
              destruct (negb (stt =? 200)); [injection HR as <- <-; reflexivity|].
              unfold mbind in HR. match type of HR with context [handle_code resp ?tt] =>
                pose proof (handle_log resp tt) as Hh; destruct (handle_code resp tt) as [t3 [u3|e3]] end;
                unfold mlift in HR; injection HR as <- <-; exact Hh.
            * intros dx s' k' tk (_ & _ & Hc & _) Hs Ht. rewrite Hs, Ht, Hc. eauto.
          + exists []. injection HR as <- <-. split; [now rewrite app_nil_r|].
            intros dx s' k' tk (Hs & _) _ _. rewrite Es2 in Hs. injection Hs as <-.
            unfold aes_encrypt in Ee. destruct (cbc_encrypt_ok enc_block (fst s2) (snd s2) (pkcs7_pad m) (pad_whole m)) as (ct & Hct).
            rewrite Hct in Ee. discriminate.
        - exists []. unfold passthrough in HR. rewrite Es2 in HR. injection HR as <- <-.
          split; [now rewrite app_nil_r|]. intros dx s' k' tk (Hs & _). congruence. }
      destruct Hlogs as (p2 & Hlog2 & Hp2). exists (p1 ++ p2). split; [rewrite Hlog2, Hlog1; now rewrite app_assoc|].
      intros d1 Hsv. destruct (H1 p2 d1 Hsv) as (d2 & Hsv2 & Es & _ & (s' & k' & tk & HT2 & Hes2 & Htk2) & Hgood).
      destruct (Hp2 _ _ _ _ HT2 Hes2 Htk2) as (pl & ->).
      destruct (request_step m t2 t' r h w true d2 d1 s' k' tk HR HT2 Hes2 Htk2) as (pl' & Hlog' & HX).
      rewrite Hlog2 in Hlog'. apply app_inv_head in Hlog'. injection Hlog' as <-.
      destruct (HX Hsv2) as (HT' & Hst' & Htk' & Hex' & Hds & Heff & Hok).
      split; [intros _ _; exists s', k'; split; [exact HT'|]; intros _; rewrite Htk'; eauto|].
      split; [unfold effect; rewrite <- Es; exact Heff|].
      intros Hh Hkn e x He Hx Hle Hnow _.
      assert (Hall : forall y, at_cookie S k d = Some y -> e + 600 <= ds_until y).
      { intros y Hy. rewrite Hx in Hy. now injection Hy as <-. }
      destruct (Hgood Hh (ex_intro _ x (conj Hx Hnow)) Hkn e He Hall)
        as (_ & s3 & k3 & tk3 & x3 & e3 & HT3 & _ & Htok3 & Hx3 & Hdt3 & He3 & Hle3 & Hin3).
      destruct HT2 as (_ & _ & Hc2 & _). pose proof HT3 as (Hs3 & _ & Hc3 & _). pose proof HT' as (Hs' & _ & Hc' & _).
      rewrite Hc2 in Hc3. injection Hc3 as <-. rewrite Htk2 in Htok3. injection Htok3 as <-.
      split.
      * intros _ e0 He0. rewrite Hex', He3 in He0. injection He0 as <-. exists s', k', x3. split; [exact HT'|].
        unfold at_cookie in *. rewrite Hds. split; [exact Hx3|]. split; [exact Hle3|]. intros _. rewrite Htk'. eauto.
      * unfold done. rewrite <- Es. destruct Hh as (_ & _ & _ & _ & Hq). destruct (Hok Hq) as [Hd|(_ & _ & Hno)]; [exact Hd|].
        exfalso. apply Hno. split; [exact Hin3|eauto].
    + destruct HR as (-> & Hl & HH). exists p1. split; [congruence|]. intros d1 Hsv.
      rewrite <- (app_nil_r p1) in Hsv. destruct (H1 [] d1 Hsv) as (d2 & Hsv2 & Es & HLk & _ & Hgood).
      apply served_none in Hsv2. subst d2.
      split; [destruct HH as [->|HH]; [exact HLk|intros N; congruence]|].
      split; [left; split; [exact Es|eauto]|].
      intros Hh Hkn e0 x He Hx Hle Hnow _. exfalso.
      assert (Hall : forall y, at_cookie S k d = Some y -> e0 + 600 <= ds_until y).
      { intros y Hy. rewrite Hx in Hy. now injection Hy as <-. }
      destruct (Hgood Hh (ex_intro _ x (conj Hx Hnow)) Hkn e0 He Hall) as (N & _). discriminate.
Qed.

Lemma send_step w m t t' r h d d1 :
  sends w m t = (t', r) -> log t = [] -> linked t d -> meets open_key h w -> serv h w false d (log t') d1 ->
  linked t' d1 /\ effect m d d1 r /\
  (healthy h w -> knows login_text accepts -> alive t d -> alive t' d1 /\ done m d d1 r).
Proof.
  intros HS Hlog HL Hm Hsv. unfold send in HS.
  set (need := match st t with HANDSHAKE_REQUIRED => true | _ => session_expired t (w_now w) end) in *.
  destruct need eqn:En.
  - destruct (shakes (w_hs w) t) as [t1 o1] eqn:E1. destruct o1 as [u|e].
    + destruct (shake_ok _ _ _ _ E1) as (Est & Ec & s1 & Es1 & El1).
      pose proof Hm as ((_ & _ & Hck & _) & _). rewrite Hck in Ec.
      assert (Hlog' : exists p, log t' = PHandshake :: p).
      { destruct (shake_step (w_hs w) t t1 (Ok u) h w false d [] d E1 eq_refl Hm) as (Hl1 & _). rewrite Hlog in Hl1.
        destruct (tail_step w m t1 t' r h false (mkDev [] (dv_state d)) s1 (k_cookie (h_shake h)) HS) as (p & Hp & _).
        - congruence.
        - split; [exact Es1|]. split; [exact El1|]. split; [exact Ec|]. intros x Hx. discriminate.
        - intros N. congruence.
        - exact Hm.
        - rewrite Hl1 in Hp. exists p. exact Hp. }
      destruct Hlog' as (p & Hlp). rewrite Hlp in Hsv.
      destruct (shake_step (w_hs w) t t1 (Ok u) h w false d p d1 E1 eq_refl Hm) as (Hl1 & HX).
      destruct (HX Hsv) as (d2 & Hsv2 & Es & _ & Hex & HT & x & Hx & Hux). clear HX.
      destruct (tail_step w m t1 t' r h false d2 _ _ HS ltac:(congruence) HT ltac:(congruence) Hm) as (p' & Hp' & HY).
      rewrite Hl1, Hlog, Hlp in Hp'. cbn [List.app] in Hp'. injection Hp' as <-.
      destruct (HY d1 Hsv2) as (HL' & Heff & Hgood).
      split; [exact HL'|]. split; [unfold effect; rewrite <- Es; exact Heff|].
      intros Hh Hkn _. pose proof Hh as ((_ & C1 & C2 & C3) & _).
      unfold done. rewrite <- Es. apply (Hgood Hh Hkn _ x Hex Hx); rewrite ?Hux; try lia. congruence.
    + injection HS as <- <-.
      destruct (shake_step (w_hs w) t t1 (Err e) h w false d [] d1 E1 eq_refl Hm) as (Hl1 & HX).
      rewrite Hl1, Hlog in Hsv. cbn [List.app] in Hsv. destruct (HX Hsv) as (d2 & Hsv2 & Es & (_ & Hex) & Hf).
      apply served_none in Hsv2. subst d2.
      split; [intros _ N; congruence|]. split; [left; split; [exact Es|eauto]|].
      intros ((Hf' & _) & _). congruence.
  - assert (Hst : st t <> HANDSHAKE_REQUIRED) by (intros N; subst need; rewrite N in En; discriminate).
    assert (Hse : session_expired t (w_now w) = false) by (subst need; destruct (st t); [congruence|exact En|exact En]).
    destruct (linked_unexpired t d (w_now w) HL Hst Hse) as (s & k & HT & Htk).
    destruct (tail_step w m t t' r h false d s k HS Hst HT Htk Hm) as (p & Hp & HY).
    rewrite Hlog in Hp. rewrite Hp in Hsv. destruct (HY d1 Hsv) as (HL' & Heff & Hgood).
    split; [exact HL'|]. split; [exact Heff|]. intros Hh Hkn HA.
    unfold session_expired in Hse. destruct (expire_at t) as [e|] eqn:Ee; [|discriminate]. apply Z.leb_gt in Hse.
    destruct (HA Hst e Ee) as (s2 & k2 & x & HT2 & Hx & Hle & Htx).
    destruct HT as (_ & _ & Hc & _). destruct HT2 as (_ & _ & Hc2 & _). rewrite Hc in Hc2. injection Hc2 as <-.
    apply (Hgood Hh Hkn e x eq_refl Hx Hle); [lia|exact Htx].
Qed.

Lemma linked_cleared t d : linked t d -> linked (cleared t) d.
Proof. intros H. exact H. Qed.
Lemma alive_cleared t d : alive t d -> alive (cleared t) d.
Proof. intros H. exact H. Qed.

Lemma forget_at keep k d x :
  at_cookie S k (mkDev (filter (fun x => keep (ds_cookie x)) (dv_sessions d)) (dv_state d)) = Some x ->
  at_cookie S k d = Some x.
Proof.
  unfold at_cookie. cbn [dv_sessions]. induction (dv_sessions d) as [|y l IH]; cbn [filter find]; [discriminate|].
  destruct (keep (ds_cookie y)) eqn:Ek; cbn [find].
  - destruct (String.eqb (ds_cookie y) k); auto.
  - intros H. destruct (String.eqb (ds_cookie y) k) eqn:Eq; [|auto].
    exfalso. apply String.eqb_eq in Eq. subst k. apply find_some in H. destruct H as (Hin & Hk).
    apply String.eqb_eq in Hk. apply filter_In in Hin. destruct Hin as (_ & Hin). congruence.
Qed.

Lemma together_linked t d es y outs : togeth (t, d) es y outs -> linked t d ->
  linked (fst y) (snd y) /\
  Forall (fun o => let '(m, s, s', r) := o in
    (s' = s /\ exists e, r = Err e) \/
    (s' = fst (app s m) /\ (r = und (snd (app s m)) \/ exists e, r = Err e))) outs.
Proof.
  intros HT. remember (t, d) as x eqn:Ex. revert t d Ex. induction HT; intros ta da Ex HL.
  - subst. split; [exact HL|constructor].
  - injection Ex as -> ->. destruct (send_step _ _ _ _ _ _ _ _ H eq_refl (linked_cleared _ _ HL) H1 H0) as (HL' & Heff & _).
    destruct (IHHT _ _ eq_refl HL') as (A & B). split; [exact A|]. constructor; [exact Heff|exact B].
  - injection Ex as -> ->. apply (IHHT _ _ eq_refl). intros N. now destruct N.
  - injection Ex as -> ->. apply (IHHT _ _ eq_refl). exact HL.
  - injection Ex as -> ->. apply (IHHT _ _ eq_refl). intros N1 N2. destruct (HL N1 N2) as (s & k & (T1 & T2 & T3 & T4) & HK).
    exists s, k. split; [|exact HK]. repeat (split; [assumption|]). intros z Hz. apply T4. now apply forget_at in Hz.
Qed.

Lemma together_alive t d es y outs : togeth (t, d) es y outs -> alive t d -> knows login_text accepts ->
  all_healthy S es ->
  alive (fst y) (snd y) /\ dv_state (snd y) = fst (directly json_loads S app (dv_state d) es) /\
  map snd outs = snd (directly json_loads S app (dv_state d) es).
Proof.
  intros HT. remember (t, d) as x eqn:Ex. revert t d Ex. induction HT; intros ta da Ex HL Hkn Hh.
  - subst. repeat split. exact HL.
  - injection Ex as -> ->. inversion Hh as [|? ? Hh1 Hh2]; subst.
    destruct (send_step _ _ _ _ _ _ _ _ H eq_refl (alive_linked _ _ (alive_cleared _ _ HL)) H1 H0) as (_ & _ & Hg).
    destruct (Hg Hh1 Hkn (alive_cleared _ _ HL)) as (HA & Hs & Hr).
    destruct (IHHT _ _ eq_refl HA Hkn Hh2) as (A & B & C). split; [exact A|].
    cbn [directly]. rewrite Hs in B, C. destruct (app (dv_state da) m) as [s1 ans]. cbn [fst snd] in *.
    destruct (directly json_loads S app s1 es) as [s2 rs]. cbn [fst snd map] in *. split; [exact B|]. now rewrite Hr, C.
  - injection Ex as -> ->. inversion Hh as [|? ? Hh1 Hh2]; subst. apply (IHHT _ _ eq_refl); auto. intros N. now destruct N.
  - injection Ex as -> ->. inversion Hh as [|? ? Hh1 Hh2]; subst.
    destruct (IHHT _ _ eq_refl) with (2 := Hkn) (3 := Hh2) as (A & B & C); [exact HL|].
    split; [exact A|]. split; [exact B|exact C].
  - inversion Hh as [|? ? Hh1 Hh2]. now destruct Hh1.
Qed.

Lemma together_split t d es1 es2 y outs : togeth (t, d) (es1 ++ es2) y outs ->
  exists t1 d1 o1 o2, togeth (t, d) es1 (t1, d1) o1 /\ togeth (t1, d1) es2 y o2 /\ outs = o1 ++ o2.
Proof.
  revert t d outs. induction es1 as [|e es1 IH]; intros t d outs H; cbn [List.app] in H.
  - exists t, d, [], outs. split; [constructor|]. split; [exact H|reflexivity].
  - inversion H; subst;
      match goal with HT : togeth _ (es1 ++ es2) y ?oo |- _ =>
        destruct (IH _ _ _ HT) as (ta & da & o1 & o2 & A & B & ->) end;
      exists ta, da; [exists ((m, dv_state d, dv_state d1, r) :: o1)|exists o1|exists o1|exists o1];
      exists o2; (split; [econstructor; eassumption|split; [exact B|reflexivity]]).
Qed.
End Peer.

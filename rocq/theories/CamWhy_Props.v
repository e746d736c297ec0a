(** C167: a camera that refuses a login says why. *)
From Verif Require Import Base Base_Lemmas Py Codes_Model Crypto_Model Crypto_Proofs Cam_Model Cam_Spec Cam_Proofs Cam_Fresh_Proofs Cam_Props CamWhy_Spec CamWhy_Proofs.
From Verif Require Klap_Model Aes_Model Aes_Spec.
Open Scope string_scope.
Open Scope list_scope.
Open Scope Z_scope.

Section Why.
Variables enc_block dec_block : bytes -> bytes -> bytes.
Variable json_loads : bytes -> option json.
Variables md5_hex sha256_hex : bytes -> string.
Variable sha256 : bytes -> bytes.
Variable str_int : Z -> string.
Variable str_json : json -> string.
Variable wrap : bytes -> bytes.
Variable cfg : config.
Notation cstep := (step enc_block dec_block json_loads md5_hex sha256_hex sha256 str_int str_json wrap cfg).
Notation crun := (run enc_block dec_block json_loads md5_hex sha256_hex sha256 str_int str_json wrap cfg).

(** The name greeted with: the configured one, or the default if a camera took that before *)
Definition own_name (u : string) : Prop := user_name cfg = Some u \/ u = "admin".

(** Whatever was done before: a camera that refuses the user's name and the default one is asked
    nothing more.  If it says that it is blocked, that is the error; else it is an authentication
    error. *)
Theorem camera_says_why_partial es t outs w m why why2 :
  crun (init cfg) es = (t, outs) -> no_session es -> named cfg ->
  refuses (w_hello w) why -> refuses (w_hello2 w) why2 ->
  exists t' u r, cstep t (ESend w m) = (t', [PHello false u (w_n1 w); PHello true "admin" (w_n2 w)], Some (Err r))
    /\ own_name u
    /\ (says_blocked why -> r = KDevice (Some (-40404)))
    /\ (~ says_blocked why -> r = KAuth None).
Proof.
  intros Hr Hn Hu H H2. destruct (ready_user _ _ _ _ _ _ _ _ _ _ es t outs Hr Hn Hu) as (Hst & Hl & u & Eu & Ne & Ho).
  pose proof (hello_refused md5_hex sha256_hex str_json cfg w t u why why2 Eu Ne H H2) as E.
  destruct (send_fails enc_block dec_block json_loads md5_hex sha256_hex sha256 str_int str_json wrap cfg w m t _ _ Hst E) as (G1 & G2).
  destruct (cstep t (ESend w m)) as [[t' p] o]. cbn [fst snd] in *. subst o p. cbn [add_log log]. rewrite Hl.
  exists t', u, (why_error why). split; [reflexivity|]. split; [exact Ho|]. unfold says_blocked, why_error. split.
  - intros ->. reflexivity.
  - intros N. destruct why as [z|]; [|reflexivity]. destruct (z =? -40404) eqn:F; [|reflexivity].
    apply Z.eqb_eq in F. subst z. now destruct N.
Qed.

(** A camera with another password gets the greeting and nothing else. *)
Theorem camera_other_password es t outs w m :
  crun (init cfg) es = (t, outs) -> no_session es -> named cfg ->
  other_password md5_hex sha256_hex cfg (w_hello w) (w_n1 w) ->
  exists t' u, cstep t (ESend w m) = (t', [PHello false u (w_n1 w)], Some (Err (KAuth None))) /\ own_name u.
Proof.
  intros Hr Hn Hu H. destruct (ready_user _ _ _ _ _ _ _ _ _ _ es t outs Hr Hn Hu) as (Hst & Hl & u & Eu & Ne & Ho).
  pose proof (hello_other md5_hex sha256_hex str_json cfg w t u Eu Ne H) as E.
  destruct (send_fails enc_block dec_block json_loads md5_hex sha256_hex sha256 str_int str_json wrap cfg w m t _ _ Hst E) as (G1 & G2).
  destruct (cstep t (ESend w m)) as [[t' p] o]. cbn [fst snd] in *. subst o p. cbn [add_log log]. rewrite Hl.
  exists t', u. split; [reflexivity|exact Ho].
Qed.

(** A camera that takes the greeting and refuses the proof: the number it gives decides. *)
Theorem camera_refuses_proof es t outs w m server ph j c :
  crun (init cfg) es = (t, outs) -> no_session es -> named cfg ->
  proves md5_hex sha256_hex cfg w false (w_n1 w) server ph ->
  body (w_proof w) = Some j -> code_in j = Some c -> c <> 0 ->
  exists t' u digest r,
    cstep t (ESend w m) = (t', [PHello false u (w_n1 w); PProof (Some u) (w_n1 w) digest], Some (Err r)) /\ own_name u
    /\ (c = -40413 -> r = KAuth None)
    /\ (c <> -40413 -> zmem c smart_retryable_errors = true -> r = KRetry (Some c))
    /\ (c <> -40413 -> auth_code c = true -> r = KAuth (Some c))
    /\ (c <> -40413 -> zmem c smart_retryable_errors = false -> auth_code c = false -> r = KDevice (Some c)).
Proof.
  intros Hr Hn Hu H Hb Hc H0. destruct (ready_user _ _ _ _ _ _ _ _ _ _ es t outs Hr Hn Hu) as (Hst & Hl & u & Eu & Ne & Ho).
  destruct (hello_complete md5_hex sha256_hex str_json cfg w t u server ph Eu Ne H) as (ph' & E).
  destruct (proof_fails sha256_hex sha256 str_json w (add_log (PHello false u (w_n1 w)) t) (w_n1 w) server ph' j c Hb Hc H0) as (t2 & dg & E2 & L2).
  destruct (send_fails2 enc_block dec_block json_loads md5_hex sha256_hex sha256 str_int str_json wrap cfg w m t _ _ _ _ _ _ Hst E E2) as (G1 & G2).
  destruct (cstep t (ESend w m)) as [[t' p] o]. cbn [fst snd] in *. subst o p. rewrite L2. cbn [add_log log user]. rewrite Hl, Eu.
  exists t', u, dg, (proof_error c). split; [reflexivity|]. split; [exact Ho|]. unfold proof_error, Aes_Spec.auth_code.
  split; [intros ->; reflexivity|]. split; [|split]; intros N.
  - apply Z.eqb_neq in N. rewrite N. intros ->. reflexivity.
  - apply Z.eqb_neq in N. rewrite N. intros A. apply andb_prop in A. destruct A as (A & B).
    destruct (zmem c smart_retryable_errors); [discriminate|]. rewrite A. reflexivity.
  - apply Z.eqb_neq in N. rewrite N. intros ->. rewrite andb_true_r. intros ->. reflexivity.
Qed.

(** Without a user name a blocked camera is not reported as such. *)
Theorem camera_blocked_unnamed_refuted w m :
  user_name cfg = None \/ user_name cfg = Some "" -> refuses (w_hello2 w) (Some (-40404)) ->
  exists t', cstep (init cfg) (ESend w m) = (t', [PHello true "admin" (w_n2 w)], Some (Err (KAuth None))).
Proof.
  intros Hu H. destruct (ready enc_block dec_block json_loads md5_hex sha256_hex sha256 str_int str_json wrap cfg [] (init cfg) [] eq_refl (or_introl eq_refl)) as (Hst & Hl & [U|U]).
  2: { exfalso. cbn [init user] in U. unfold user0, own_creds in U. unfold user_name in Hu. clear - U Hu.
       destruct (c_creds cfg) as [[a b]|]; [destruct (String.eqb a "" && String.eqb b "")|]; destruct (c_hash cfg) as [[x y]|];
         destruct Hu as [Hu|Hu]; congruence. }
  assert (V : user (init cfg) = None \/ user (init cfg) = Some "") by (rewrite U; exact Hu).
  pose proof (anonymous_refused md5_hex sha256_hex str_json cfg w (init cfg) _ V H) as E.
  destruct (send_fails enc_block dec_block json_loads md5_hex sha256_hex sha256 str_int str_json wrap cfg w m _ _ _ Hst E) as (G1 & G2).
  destruct (cstep (init cfg) (ESend w m)) as [[t' p] o]. cbn [fst snd] in *. subst o p. exists t'. reflexivity.
Qed.

(** An empty reply to the greeting ends in an exception that is none of the library's. *)
Theorem camera_empty_reply_refuted es t outs w m why2 :
  crun (init cfg) es = (t, outs) -> no_session es -> named cfg ->
  body (w_hello w) = Some (JObj []) -> refuses (w_hello2 w) why2 ->
  snd (cstep t (ESend w m)) = Some (Err PyUnboundLocal).
Proof.
  intros Hr Hn Hu H H2. destruct (ready_user _ _ _ _ _ _ _ _ _ _ es t outs Hr Hn Hu) as (Hst & Hl & u & Eu & Ne & Ho).
  pose proof (hello_empty md5_hex sha256_hex str_json cfg w t u why2 Eu Ne H H2) as E.
  exact (proj1 (send_fails enc_block dec_block json_loads md5_hex sha256_hex sha256 str_int str_json wrap cfg w m t _ _ Hst E)).
Qed.
End Why.

Print Assumptions camera_says_why_partial.
Print Assumptions camera_other_password.
Print Assumptions camera_refuses_proof.
Print Assumptions camera_blocked_unnamed_refuted.
Print Assumptions camera_empty_reply_refuted.

(** * Concrete cases *)
Definition blocked_reply : reply :=
  Ok (200, JObj [("error_code", JInt (-40401)); ("data", JObj [("code", JInt (-40404)); ("sec_left", JInt 1788)])]).
Definition badname_reply : reply := obj (-40401) [("data", JObj [("code", JInt (-40411)); ("encrypt_type", JArr [JStr "3"])])].
Example refuses_ex : refuses blocked_reply (Some (-40404)) /\ refuses badname_reply (Some (-40411)).
Proof.
  split; do 2 eexists; (split; [reflexivity|]); (split; [discriminate|]); (split; [reflexivity|]); (split; [discriminate|]).
  - split.
    + intros (j & et & H & _ & K & _). injection H as <-. discriminate K.
    + do 5 eexists. repeat (split; [reflexivity|]). reflexivity.
  - split.
    + intros (j & et & H & _ & K & _ & N). injection H as <-. vm_compute in K. injection K as <-. now destruct N.
    + do 5 eexists. repeat (split; [reflexivity|]). reflexivity.
Qed.
Definition why_world (hello hello2 proof : reply) : world :=
  mkW "n1" "n2" hello toy_refusal hello2 toy_refusal proof toy_refusal.
Example other_password_ex : other_password toy_md5 toy_hex toy_cfg (toy_hello "n1" "other") "n1" /\ named toy_cfg
  /\ no_session (toy_history ++ [EReset]).
Proof.
  split; [|split].
  - do 3 eexists. repeat (split; [reflexivity|]). split; vm_compute; discriminate.
  - exists "me". split; [reflexivity|discriminate].
  - right. exists toy_history. reflexivity.
Qed.
Example camera_why_ex :
  map (fun o => (kinds (fst o), snd o)) (snd (toy_run (init toy_cfg)
    [ESend (why_world blocked_reply blocked_reply toy_refusal) (lit "one");
     ESend (why_world badname_reply badname_reply toy_refusal) (lit "two");
     ESend (why_world (toy_hello "n1" "other") toy_refusal toy_refusal) (lit "three");
     ESend (why_world (toy_hello "n1" "pw") toy_refusal (obj (-40413) [])) (lit "four");
     ESend (why_world (toy_hello "n1" "pw") toy_refusal toy_refusal) (lit "five");
     ESend (why_world (Ok (200, JObj [])) badname_reply toy_refusal) (lit "six")])) =
    [(["hello me"; "hello admin"], Some (Err (KDevice (Some (-40404)))));
     (["hello me"; "hello admin"], Some (Err (KAuth None)));
     (["hello me"], Some (Err (KAuth None)));
     (["hello me"; "proof me"], Some (Err (KAuth None)));
     (["hello me"; "proof me"], Some (Err (KRetry (Some (-40401)))));
     (["hello me"; "hello admin"], Some (Err PyUnboundLocal))].
Proof. vm_compute. reflexivity. Qed.

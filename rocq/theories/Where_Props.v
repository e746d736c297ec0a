(** C140: requests go to the configured host and port. *)
From Verif Require Import Base Where_Model Where_Spec Where_Proofs.
From Coq Require Import Decimal DecimalString.
Open Scope string_scope.
Open Scope list_scope.
Open Scope Z_scope.

(** Over every history without a change of the host, all requests go to the host of the
    configuration, at the override of the port, else the port that discovery told, else
    the usual one; with https exactly for the encrypted transports. *)
Theorem requests_to_configured : forall k c l, no_colon (c_host c) \/ k = TXor -> no_set_host l ->
  exists p, wanted_port k c p /\ port (new_transport k c) = p /\
    forall x, In x (snd (run (new_transport k c) l)) ->
      reaches x (c_host c) p /\ (encrypted x <-> (k = TSslAes \/ k = TSsl \/ k = TLinkie \/ (k = TKlap /\ c_https c = true))).
Proof.
  intros k c l H N. exists (port_of k c). split; [apply port_wanted|]. split; [reflexivity|]. intros x Hx.
  assert (D : (k = TXor /\ x = PTcp (c_host c) (port_of k c)) \/ (k <> TXor /\ good (scheme_of k c) (c_host c) (port_of k c) x)).
  { assert (E : k = TXor \/ k <> TXor) by (destruct k; (now left) || (right; discriminate)). destruct E as [E | E].
    - left. split; [exact E|]. exact (proj1 (Forall_forall _ _) (xor_run l (new_transport k c) E (or_introl eq_refl) N) x Hx).
    - right. split; [exact E|]. exact (proj1 (Forall_forall _ _) (proj2 (run_good l _ _ _ _ (new_aimed k c) eq_refl eq_refl eq_refl N)) x Hx). }
  destruct D as [[-> ->] | [E G]].
  - split; [now split|]. split; [intros []|]. intros [Q | [Q | [Q | [Q _]]]]; discriminate Q.
  - assert (NC : no_colon (c_host c)) by (destruct H as [H | H]; [exact H|now destruct E]).
    destruct x as [u|h' p'].
    + split; [exact (made_reaches _ _ _ _ NC G)|]. destruct G as (G & _). unfold encrypted. rewrite G. unfold scheme_of.
      destruct k; try (split; [intros _; auto|reflexivity]); try congruence.
      * split; [discriminate|]. intros [Q | [Q | [Q | [Q _]]]]; discriminate Q.
      * destruct (c_https c); split; intros Q; auto; try discriminate Q. destruct Q as [Q | [Q | [Q | [_ Q]]]]; discriminate Q.
    + exfalso. (* no TCP places from URL transports *)
      clear - Hx E. revert Hx.
      assert (T : forall l t, t_kind t <> TXor -> In (PTcp h' p') (snd (run t l)) -> False).
      { clear. induction l as [|o l IH]; intros t K; cbn [run]; [intros []|].
        assert (Q : t_kind (fst (step t o)) <> TXor /\ ~ In (PTcp h' p') (snd (step t o))).
        { destruct o as [y|f| |]; cbn [step].
          - split; [exact K|intros []].
          - destruct (send_same t f) as (S1 & _). split; [now rewrite S1|]. unfold send. destruct (t_kind t); [| | | | |congruence].
            + unfold aes_send, aes_login, aes_request. destruct (needs_handshake t || f_expired f)%bool; [destruct (f_hs1 f)|];
                repeat (match goal with |- context [if established ?a then _ else _] => destruct (established a) end; cbv zeta; cbn [fst snd]);
                try (destruct (f_token f)); cbn [fst snd List.app In]; intuition discriminate.
            + unfold klap_send, klap_request. cbv zeta. destruct (needs_handshake t || f_expired f)%bool; [destruct (f_hs1 f); [destruct (f_hs2 f)|]|];
                cbn [fst snd List.app In]; intuition discriminate.
            + unfold sslaes_send, sslaes_request. cbv zeta. destruct (needs_handshake t); [destruct (f_hs1 f); [destruct (f_token f)|]|];
                cbn [fst snd List.app In]; intuition discriminate.
            + unfold ssl_send, ssl_request. cbv zeta. destruct (negb (established t) || f_expired f)%bool; [destruct (f_token f)|];
                cbn [fst snd List.app In]; intuition discriminate.
            + cbn [fst snd In]. intuition discriminate.
          - split; [|intros []]. cbn [fst]. unfold reset. destruct (t_kind t) eqn:Q; cbn; congruence.
          - split; [|intros []]. cbn [fst]. unfold reset. destruct (t_kind t) eqn:Q; cbn; congruence. }
        destruct (step t o) as [t1 p1]. cbn [fst snd] in Q. destruct Q as (Q1 & Q2). specialize (IH t1 Q1). destruct (run t1 l) as [t2 p2]. cbn [snd] in *.
        intros Hi. apply in_app_or in Hi. tauto. }
      intros Hx. exact (T l (new_transport k c) E Hx).
Qed.
Print Assumptions requests_to_configured.
(** There is one such port. *)
Theorem wanted_port_unique : forall k c p q, wanted_port k c p -> wanted_port k c q -> p = q.
Proof. intros k c p q [p1 A1 A2|p1 A0 A1 A2 A3|A1 A2] [q1 B1 B2|q1 B0 B1 B2 B3|B1 B2]; try reflexivity; intuition congruence. Qed.
Print Assumptions wanted_port_unique.
Definition good_send : fate := mkFate false true true (Some "T") false.
Definition expired_send : fate := mkFate true true true (Some "U") false.
Example requests_case :
  let c := mkCfg "10.0.0.5" None (Some 20443) true in
  no_colon (c_host c) /\
  snd (run (new_transport TKlap c) [OSend good_send; OSend good_send]) =
    [PUrl (mkUrl "https" "10.0.0.5:20443" "10.0.0.5:20443" "/app/handshake1" ""); PUrl (mkUrl "https" "10.0.0.5:20443" "10.0.0.5:20443" "/app/handshake2" "");
     PUrl (mkUrl "https" "10.0.0.5:20443" "10.0.0.5:20443" "/app/request" ""); PUrl (mkUrl "https" "10.0.0.5:20443" "10.0.0.5:20443" "/app/request" "")] /\
  snd (run (new_transport TSslAes (mkCfg "10.0.0.5" (Some 0) None true)) [OSend good_send]) =
    [PUrl (mkUrl "https" "10.0.0.5:443" "10.0.0.5" "" ""); PUrl (mkUrl "https" "10.0.0.5:443" "10.0.0.5" "" "");
     PUrl (mkUrl "https" "10.0.0.5" "10.0.0.5" "/stok=T/ds" "")] /\
  snd (run (new_transport TAes (mkCfg "10.0.0.5" (Some 8080) (Some 81) false)) [OSend good_send; OSend expired_send]) =
    [PUrl (mkUrl "http" "10.0.0.5:8080" "10.0.0.5:8080" "/app" ""); PUrl (mkUrl "http" "10.0.0.5:8080" "10.0.0.5:8080" "/app" "");
     PUrl (mkUrl "http" "10.0.0.5:8080" "10.0.0.5:8080" "/app" "token=T"); PUrl (mkUrl "http" "10.0.0.5:8080" "10.0.0.5:8080" "/app" "");
     PUrl (mkUrl "http" "10.0.0.5:8080" "10.0.0.5:8080" "/app" ""); PUrl (mkUrl "http" "10.0.0.5:8080" "10.0.0.5:8080" "/app" "token=U")].
Proof. cbv zeta. split; [split; [intros H; cbn in H; repeat (destruct H as [H|H]; [discriminate H|]); exact H|intros [r E]; discriminate E]|]. vm_compute. repeat split. Qed.

(** The object shows the host that was set last, and its port never changes. *)
Theorem host_shown : forall k c l, host (fst (run (new_transport k c) l)) = last_host (c_host c) l /\ port (fst (run (new_transport k c) l)) = port (new_transport k c).
Proof. intros k c l. destruct (run_names l (new_transport k c)) as (A & B & _). split; [exact A|exact B]. Qed.
Print Assumptions host_shown.
(** but for four of the transports all requests, over every history, still go to the
    first host, and none to one that was set *)
Theorem set_host_refuted : forall k c l, k = TAes \/ k = TKlap \/ k = TSslAes \/ k = TLinkie -> no_colon (c_host c) ->
  forall x, In x (snd (run (new_transport k c) l)) ->
    reaches x (c_host c) (port (new_transport k c)) /\ forall h p, h <> c_host c -> ~ reaches x h p.
Proof.
  intros k c l F N x Hx. pose proof (proj1 (Forall_forall _ _) (proj2 (run_fixed l (new_transport k c) _ _ _ F (new_aimed k c))) x Hx) as G.
  assert (R : reaches x (c_host c) (port_of k c)) by (destruct x as [u|h' p']; [exact (made_reaches _ _ _ _ N G)|exact G]).
  split; [exact R|]. intros h p Hn R2. destruct x as [u|h' p']; cbn [reaches] in R, R2.
  - destruct (read_auth (u_auth u)) as [h' [d|]]; destruct R as [R _]; destruct R2 as [R2 _]; congruence.
  - destruct R as [R _]. destruct R2 as [R2 _]. congruence.
Qed.
Print Assumptions set_host_refuted.
Example set_host_case :
  let r := run (new_transport TKlap (mkCfg "10.0.0.5" None None false)) [OSetHost "lamp.home"; OReset; OSend good_send] in
  host (fst r) = "lamp.home" /\ nth_error (snd r) 2 = Some (PUrl (mkUrl "http" "10.0.0.5:80" "10.0.0.5" "/app/request" "")).
Proof. vm_compute. split; reflexivity. Qed.
(** The other two follow the change once they are reset or closed *)
Theorem set_host_after_reset : forall k c l1 h o l2, k = TSsl \/ k = TXor -> no_colon h -> o = OReset \/ o = OClose -> no_set_host l2 ->
  let t := fst (run (new_transport k c) (l1 ++ [OSetHost h; o])) in
  forall x, In x (snd (run t l2)) -> reaches x h (port (new_transport k c)).
Proof.
  intros k c l1 h o l2 K N O S. cbv zeta. rewrite run_app. cbn [fst].
  destruct (run_names l1 (new_transport k c)) as (_ & P & Kd & C).
  set (t1 := fst (run (new_transport k c) l1)) in *.
  assert (E : fst (run t1 [OSetHost h; o]) = reset (with_host t1 h)) by (destruct O as [-> | ->]; reflexivity). rewrite E. clear E.
  intros x Hx. destruct K as [-> | ->].
  - assert (B := ssl_bare l1 (new_transport TSsl c) eq_refl eq_refl eq_refl). fold t1 in B. destruct B as (B1 & B2).
    assert (A : aimed (reset (with_host t1 h)) (scheme_of TSsl c) h (port_of TSsl c)).
    { unfold reset. cbn [with_host t_kind]. rewrite Kd. cbn [new_transport t_kind]. unfold ssl_reset. cbn [with_host t_host t_port t_kind t_cfg]. rewrite Kd, C, P.
      cbn [new_transport t_kind t_cfg t_port]. split; [apply made_app|]. split; cbn [with_app with_host t_token t_to]; [rewrite B1|rewrite B2]; intros y Hy; discriminate Hy. }
    assert (I : t_host (reset (with_host t1 h)) = h /\ t_port (reset (with_host t1 h)) = port_of TSsl c /\ scheme_of (t_kind (reset (with_host t1 h))) (t_cfg (reset (with_host t1 h))) = scheme_of TSsl c).
    { unfold reset. cbn [with_host t_kind]. rewrite Kd. cbn [new_transport t_kind]. unfold ssl_reset, with_app. cbn [with_host t_host t_port t_kind t_cfg]. rewrite Kd, C, P. repeat split. }
    destruct I as (I1 & I2 & I3).
    pose proof (proj1 (Forall_forall _ _) (proj2 (run_good l2 _ _ _ _ A I1 I2 I3 S)) x Hx) as G.
    destruct x as [u|h' p']; [exact (made_reaches _ _ _ _ N G)|exact G].
  - assert (I : t_kind (reset (with_host t1 h)) = TXor /\ t_to (reset (with_host t1 h)) = None /\ t_host (reset (with_host t1 h)) = h /\ t_port (reset (with_host t1 h)) = port_of TXor c).
    { unfold reset. cbn [with_host t_kind]. rewrite Kd. cbn [new_transport t_kind]. unfold with_to. cbn [with_host t_host t_port t_kind t_to]. rewrite Kd, P. repeat split. }
    destruct I as (I0 & I1 & I2 & I3).
    pose proof (proj1 (Forall_forall _ _) (xor_run l2 _ I0 (or_introl I1) S) x Hx) as G. rewrite I2, I3 in G. rewrite G. now split.
Qed.
Print Assumptions set_host_after_reset.
(** and not before, as long as the device answers *)
Theorem set_host_stale_refuted : forall k c fs h gs, k = TSsl \/ (k = TXor /\ exists f fs', fs = f :: fs' /\ f_hs1 f = true) -> no_colon (c_host c) ->
  (forall f, In f (fs ++ gs) -> f_lost f = false) ->
  forall x, In x (snd (run (new_transport k c) (map OSend fs ++ OSetHost h :: map OSend gs))) -> reaches x (c_host c) (port (new_transport k c)).
Proof.
  intros k c fs h gs K N L x Hx. rewrite run_app in Hx. cbn [snd] in Hx.
  assert (NS : no_set_host (map OSend fs)) by (intros y Hy; apply in_map_iff in Hy; destruct Hy as (? & Q & _); discriminate Q).
  destruct (run_good (map OSend fs) _ _ _ _ (new_aimed k c) eq_refl eq_refl eq_refl NS) as (A & G).
  assert (FIN : good (scheme_of k c) (c_host c) (port_of k c) x -> reaches x (c_host c) (port (new_transport k c))).
  { intros Q. destruct x as [u|h' p']; [exact (made_reaches _ _ _ _ N Q)|exact Q]. }
  apply FIN. apply in_app_or in Hx. destruct Hx as [Hx | Hx]; [exact (proj1 (Forall_forall _ _) G x Hx)|].
  destruct (run_names (map OSend fs) (new_transport k c)) as (_ & _ & Kd & _).
  assert (TO : k = TXor -> t_to (fst (run (new_transport k c) (map OSend fs))) <> None).
  { destruct K as [K | [K (f & fs' & -> & F)]]; [congruence|]. intros _. subst k. cbn [map run step].
    assert (Lf : f_lost f = false) by (apply L; now left).
    assert (T : forall gs t, t_kind t = TXor -> t_to t <> None -> (forall g, In g gs -> f_lost g = false) -> t_to (fst (run t (map OSend gs))) <> None).
    { clear. induction gs as [|g gs IH]; intros t Kt Ct Lg; cbn [map run step]; [exact Ct|].
      assert (Q : fst (send t g) = t). { unfold send. rewrite Kt. unfold xor_send. destruct (t_to t) as [[? ?]|]; [|congruence]. now rewrite (Lg g (or_introl eq_refl)). }
      destruct (send t g) as [t1 p1]. cbn [fst] in Q. subst t1. specialize (IH t Kt Ct (fun y Hy => Lg y (or_intror Hy))). now destruct (run t (map OSend gs)). }
    assert (Q : fst (send (new_transport TXor c) f) = with_to (new_transport TXor c) (Some (c_host c, port_of TXor c))).
    { cbn [send new_transport t_kind]. unfold xor_send. cbn [t_to]. now rewrite F, Lf. }
    destruct (send (new_transport TXor c) f) as [t1 p1]. cbn [fst] in Q. subst t1.
    specialize (T fs' (with_to (new_transport TXor c) (Some (c_host c, port_of TXor c))) eq_refl).
    destruct (run _ (map OSend fs')) as [t2 p2]. cbn [fst] in *. apply T; [discriminate|]. intros g Hg. apply L. right. apply in_or_app. now left. }
  set (t1 := fst (run (new_transport k c) (map OSend fs))) in *. cbn [run step] in Hx.
  assert (W := kept_sends gs (with_host t1 h) (scheme_of k c) (c_host c) (port_of k c)).
  assert (K2 : t_kind (with_host t1 h) = TSsl \/ t_kind (with_host t1 h) = TXor /\ t_to (with_host t1 h) <> None).
  { cbn [with_host t_kind t_to]. rewrite Kd. cbn [new_transport t_kind]. destruct K as [K | [K _]]; [now left|right]. split; [exact K|now apply TO]. }
  specialize (W K2 A (fun f Hf => L f (in_or_app _ _ _ (or_intror Hf)))).
  destruct (run (with_host t1 h) (map OSend gs)) as [t2 p2]. cbn [snd List.app] in *. exact (proj1 (Forall_forall _ _) W x Hx).
Qed.
Print Assumptions set_host_stale_refuted.
Example set_host_stale_case :
  snd (run (new_transport TXor (mkCfg "10.0.0.5" None None false)) [OSend good_send; OSetHost "lamp.home"; OSend good_send; OReset; OSend good_send]) =
    [PTcp "10.0.0.5" 9999; PTcp "10.0.0.5" 9999; PTcp "10.0.0.5" 9999; PTcp "lamp.home" 9999; PTcp "lamp.home" 9999].
Proof. reflexivity. Qed.
(** A host that is an IPv6 address is put into the URL as it is: no request reaches it.
    The plain TCP transport reaches it (requests_to_configured). *)
Theorem ipv6_host_refuted : forall k c l, k <> TXor -> has_colon (c_host c) -> ~ bracketed (c_host c) -> no_set_host l ->
  forall u p, In (PUrl u) (snd (run (new_transport k c) l)) -> ~ reaches (PUrl u) (c_host c) p.
Proof.
  intros k c l K N B S u p Hx R.
  pose proof (proj1 (Forall_forall _ _) (proj2 (run_good l _ _ _ _ (new_aimed k c) eq_refl eq_refl eq_refl S)) _ Hx) as (_ & G & _).
  assert (U : ~ bracketed (u_auth u)).
  { destruct G as [G | [G _]]; rewrite G; [|exact B]. apply not_bracketed; [exact B|]. left. intros E. rewrite E in N. destruct N. }
  cbn [reaches] in R. rewrite (read_unbracketed _ U) in R. pose proof (upto_no_colon (u_auth u)) as Q.
  destruct (upto ":" (u_auth u)) as [h' [d|]]; destruct R as [R _]; cbn [fst] in Q; rewrite R in Q; now apply Q.
Qed.
Print Assumptions ipv6_host_refuted.
Example ipv6_case : snd (run (new_transport TAes (mkCfg "fe80::1" None None false)) [OSend (mkFate false false false None false)]) =
  [PUrl (mkUrl "http" "fe80::1:80" "fe80::1" "/app" "")] /\ has_colon "fe80::1" /\ ~ bracketed "fe80::1" /\
  reaches (PUrl (mkUrl "http" "[fe80::1]:80" "[fe80::1]" "/app" "")) "fe80::1" 80.
Proof.
  split; [reflexivity|]. split; [cbn; auto 10|]. split; [intros [r E]; discriminate E|]. cbn. split; [reflexivity|]. eexists. split; reflexivity.
Qed.
